(** Python's decimal.Decimal (stdlib, trusted), as far as csvw.datatypes uses it.
    Simplifications: the exponent limits (Emin/Emax = 999999) are ignored, i.e. numerals
    are assumed to have fewer than a million characters; NaN payloads are kept verbatim. *)
From Verif Require Import PyStr.

(** ** Digit strings *)
Fixpoint digits_fuel (fuel : nat) (n : N) : pystr :=
  match fuel with
  | O => []
  | S f => if n <? 10 then [48 + n] else digits_fuel f (n / 10) ++ [48 + n mod 10]
  end.
(** str(n) for a natural number *)
Definition digits_of (n : N) : pystr := digits_fuel (S (N.size_nat n)) n.
(** int(s) for a string of ASCII digits *)
Definition val_digits (s : pystr) : N := fold_left (fun a c => a * 10 + (c - 48)) s 0.
Definition all_digits (s : pystr) : bool := forallb is_digit s.
(** str(z), '{:+d}'.format(z) *)
Definition int_str (z : Z) : pystr :=
  match z with
  | Zneg p => 45 :: digits_of (Npos p)
  | _ => digits_of (Z.to_N z)
  end.
Definition int_str_plus (z : Z) : pystr := if Z.ltb z 0 then int_str z else 43 :: int_str z.

(** ** Decimals *)
Inductive dec :=
| Fin (neg : bool) (coef : N) (exp : Z)
| Inf (neg : bool)
| NaN (signaling neg : bool) (payload : pystr).

(** decimal.Decimal.__str__ and '{:,}'.format: sign, integer part, rest *)
Definition zeros (n : Z) : pystr := repeat 48 (Z.to_nat n).
Definition dec_parts (coef : N) (exp : Z) : pystr * pystr :=
  let int := digits_of coef in
  let len := Z.of_nat (length int) in
  let left := (exp + len)%Z in
  let dotplace := if Z.leb exp 0 && Z.ltb (-6) left then left else 1%Z in
  let ip := if Z.ltb dotplace 0 then lit "0"
            else if Z.ltb len dotplace then int ++ zeros (dotplace - len)
            else match firstn (Z.to_nat dotplace) int with [] => lit "0" | p => p end in
  let fp := if Z.ltb dotplace 0 then zeros (- dotplace) ++ int
            else if Z.ltb len dotplace then []
            else skipn (Z.to_nat dotplace) int in
  let e := (left - dotplace)%Z in
  (ip, (match fp with [] => [] | _ => lit "." ++ fp end)
       ++ (if Z.eqb e 0 then [] else lit "E" ++ int_str_plus e)).
Definition sign_str (neg : bool) : pystr := if neg then lit "-" else [].

(** thousands separators, counted from the right *)
Fixpoint group3_rev (n : nat) (s : pystr) : pystr :=
  match s with
  | [] => []
  | c :: s' => if Nat.eqb n 3 then 44 :: c :: group3_rev 1 s' else c :: group3_rev (S n) s'
  end.
Definition group3 (s : pystr) : pystr := rev (group3_rev 0 (rev s)).

Definition dec_format (grouped : bool) (d : dec) : pystr :=
  match d with
  | Fin neg c e =>
      sign_str neg ++ (if grouped then group3 (fst (dec_parts c e)) else fst (dec_parts c e)) ++ snd (dec_parts c e)
  | Inf neg => sign_str neg ++ lit "Infinity"
  | NaN s neg p => sign_str neg ++ (if s then lit "sNaN" else lit "NaN") ++ p
  end.
Definition dec_str : dec -> pystr := dec_format false.

(** ** decimal.Decimal(str) *)
(** [udigit c] is the decimal digit value of a non-ASCII character, if it is one
    (unicodedata.decimal) *)
Section Parse.
Variable udigit : N -> option N.

(** _decimal.c numeric_as_ascii: strip, drop underscores, map digits to ASCII;
    white space inside stays (as ' ') and is rejected later *)
Definition to_ascii (s : pystr) : option pystr :=
  let step c acc :=
    match acc with
    | None => None
    | Some r => if c =? 95 then Some r
                else if c <? 128 then Some (c :: r)
                else if is_space c then Some (32 :: r)
                else match udigit c with Some d => Some (48 + d :: r) | None => None end
    end in
  fold_right step (Some []) (strip s).

Fixpoint span_digits (s : pystr) : pystr * pystr :=
  match s with
  | c :: s' => if is_digit c then let r := span_digits s' in (c :: fst r, snd r) else ([], s)
  | [] => ([], [])
  end.
(** mpd_qset_string without exponent (csvw rejects texts with 'e'/'E' before) *)
Definition parse_unsigned (neg : bool) (s : pystr) : option dec :=
  let low := ascii_lower s in
  if str_eqb low (lit "inf") || str_eqb low (lit "infinity") then Some (Inf neg)
  else if startswith (lit "nan") low && all_digits (skipn 3 s) then Some (NaN false neg (skipn 3 s))
  else if startswith (lit "snan") low && all_digits (skipn 4 s) then Some (NaN true neg (skipn 4 s))
  else
    let ip := span_digits s in
    match snd ip with
    | [] => match fst ip with [] => None | _ => Some (Fin neg (val_digits (fst ip)) 0) end
    | c :: rest =>
        if c =? 46 then
          let fp := span_digits rest in
          match snd fp with
          | [] => match fst ip ++ fst fp with
                  | [] => None
                  | ds => Some (Fin neg (val_digits ds) (- Z.of_nat (length (fst fp))))
                  end
          | _ => None
          end
        else None
    end.
Definition dec_of_str (s : pystr) : option dec :=
  match to_ascii s with
  | None => None
  | Some t => match t with
              | c :: t' => if c =? 43 then parse_unsigned false t'
                           else if c =? 45 then parse_unsigned true t'
                           else parse_unsigned false t
              | [] => None
              end
  end.
End Parse.

(** ** Multiplication by 1, 0.01 or 0.001 in the default context: 28 digits, ROUND_HALF_EVEN *)
Definition ndigits (n : N) : nat := length (digits_of n).
Definition prec : nat := 28.
Definition round_prec (coef : N) (exp : Z) : N * Z :=
  if Nat.leb (ndigits coef) prec then (coef, exp)
  else
    let k := N.of_nat (ndigits coef - prec) in
    let q := coef / 10 ^ k in
    let r := coef mod 10 ^ k in
    let up := match N.compare (2 * r) (10 ^ k) with Gt => true | Lt => false | Eq => N.odd q end in
    let q' := if up then q + 1 else q in
    if Nat.leb (ndigits q') prec then (q', (exp + Z.of_N k)%Z) else (q' / 10, (exp + Z.of_N k + 1)%Z).
(** d * Decimal((0, (1,), - shift)); a signaling NaN raises InvalidOperation *)
Definition dec_scale (d : dec) (shift : Z) : res dec :=
  match d with
  | Fin neg c e => let r := round_prec c (e - shift) in Ok (Fin neg (fst r) (snd r))
  | Inf neg => Ok (Inf neg)
  | NaN true _ _ => Err DecimalInvalid
  | NaN false neg p => Ok (NaN false neg p)
  end.

(** d < 0; NaNs signal *)
Definition dec_neg (d : dec) : res bool :=
  match d with
  | Fin neg c _ => Ok (neg && negb (c =? 0))
  | Inf neg => Ok neg
  | NaN _ _ _ => Err DecimalInvalid
  end.

(** Decimal.as_integer_ratio: Some z for z/1, None for a proper fraction *)
Definition dec_as_int (d : dec) : res (option Z) :=
  match d with
  | Fin neg c e =>
      let signed m := if neg then (- Z.of_N m)%Z else Z.of_N m in
      if Z.leb 0 e then Ok (Some (signed (c * 10 ^ Z.to_N e)))
      else if c mod 10 ^ Z.to_N (- e) =? 0 then Ok (Some (signed (c / 10 ^ Z.to_N (- e))))
      else Ok None
  | Inf _ => Err OverflowError
  | NaN _ _ _ => Err ValueError
  end.
