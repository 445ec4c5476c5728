(** Vocabulary of C15-C18: numerals and what they denote. *)
From Verif Require Import PyStr Dec Numeric.

(** [sign] [ip] [. [fp]]: an optional sign, digits, optionally a point and more digits;
    [point] says whether there is a point *)
Definition numeral (neg : bool) (plus : bool) (ip : pystr) (point : bool) (fp : pystr) : pystr :=
  (if neg then lit "-" else if plus then lit "+" else []) ++ ip ++ (if point then lit "." ++ fp else []).
Definition numeral_ok (ip : pystr) (point : bool) (fp : pystr) : Prop :=
  Forall (fun c => 48 <= c <= 57) (ip ++ fp) /\ ip ++ fp <> [] /\ (point = false -> fp = []).

(** a finite Decimal: [Fin neg c e] is (-1)^neg * c * 10^e; == compares these values *)
Definition scaled (neg : bool) (c : N) (e m : Z) : Z :=
  ((if neg then -1 else 1) * Z.of_N c * 10 ^ (e - m))%Z.
Definition dec_eq (a b : dec) : Prop :=
  match a, b with
  | Fin n1 c1 e1, Fin n2 c2 e2 => scaled n1 c1 e1 (Z.min e1 e2) = scaled n2 c2 e2 (Z.min e1 e2)
  | Inf n1, Inf n2 => n1 = n2
  | _, _ => False
  end.

(** at most 28 significant digits: what the default decimal context keeps *)
Definition fits (c : N) : Prop := c < 10 ^ 28.

(** thousands grouping etc. is only written for numbers printed without exponent *)
Definition printed_plainly (c : N) (e : Z) : Prop :=
  (e <= 0 /\ -6 < e + Z.of_nat (ndigits c))%Z.

(** the documented value spaces of the integer types; [int] is documented as an alias of [integer] *)
Definition documented_range (name : pystr) (z : Z) : Prop :=
  let is := str_eqb name in
  (if is (lit "unsignedByte") then 0 <= z < 2 ^ 8
   else if is (lit "unsignedShort") then 0 <= z < 2 ^ 16
   else if is (lit "unsignedInt") then 0 <= z < 2 ^ 32
   else if is (lit "unsignedLong") then 0 <= z < 2 ^ 64
   else if is (lit "byte") then - 2 ^ 7 <= z < 2 ^ 7
   else if is (lit "short") then - 2 ^ 15 <= z < 2 ^ 15
   else if is (lit "long") then - 2 ^ 63 <= z < 2 ^ 63
   else if is (lit "nonNegativeInteger") then 0 <= z
   else if is (lit "positiveInteger") then 0 < z
   else if is (lit "nonPositiveInteger") then z <= 0
   else if is (lit "negativeInteger") then z < 0
   else True)%Z.
Definition signed (neg : bool) (n : N) : Z := if neg then (- Z.of_N n)%Z else Z.of_N n.

(** characters which can be used as group or decimal character *)
Definition sep_char (c : N) : Prop :=
  ~ (48 <= c <= 57) /\ c <> 45 /\ c <> 101 /\ c <> 69.
Definition char_fmt (g d : option N) : numfmt :=
  {| nf_pattern := None; nf_decimal := option_map (fun c => [c]) d; nf_group := option_map (fun c => [c]) g |}.

(** ** Number patterns (C19) *)
Definition pat_fmt (p : pystr) : numfmt := {| nf_pattern := Some p; nf_decimal := None; nf_group := None |}.
(** '#..#0..0' or '#..#0..0.0..0#..#' *)
Definition plain_pattern (hashes zeros_ : nat) (frac : option (nat * nat)) : pystr :=
  repeat 35 hashes ++ repeat 48 zeros_
  ++ match frac with Some (a, b) => lit "." ++ repeat 48 a ++ repeat 35 b | None => [] end.
(** '#..#,##0' or '#..#,##,##0': [q] characters in the secondary group if there is one, [p] in the
    primary, the last [k] of which are zeros *)
Definition grouped_pattern (hashes : nat) (q : option nat) (p k : nat) (frac : option (nat * nat)) : pystr :=
  repeat 35 hashes ++ lit "," ++ match q with Some q => repeat 35 q ++ lit "," | None => [] end
  ++ repeat 35 (p - k) ++ repeat 48 k
  ++ match frac with Some (a, b) => lit "." ++ repeat 48 a ++ repeat 35 b | None => [] end.
Fixpoint strip_zeros (s : pystr) : pystr :=
  match s with c :: s' => if c =? 48 then strip_zeros s' else s | [] => [] end.
(** digits left of the point, without leading zeros, but one if there are only zeros *)
Definition significant_digits (ip : pystr) : nat :=
  match ip with [] => 0%nat | _ => Nat.max 1 (length (strip_zeros ip)) end.
Definition frac_ok (frac : option (nat * nat)) (n : nat) : Prop :=
  match frac with Some (a, b) => (a <= n <= a + b)%nat | None => n = 0%nat end.
(** group lengths: [p] for the last, [q] for the inner ones, at most that for the first *)
Definition groups_ok (q p : nat) (gs : list pystr) : Prop :=
  match gs with
  | [] => False
  | [g] => (length g <= p)%nat
  | g :: rest => (length g <= q)%nat /\ Forall (fun x => length x = q) (removelast rest)
                 /\ length (last rest []) = p
  end.
(** a numeral whose integer digits are written in groups separated by commas *)
Definition grouped_numeral (neg plus : bool) (gs : list pystr) (point : bool) (fp : pystr) : pystr :=
  (if neg then lit "-" else if plus then lit "+" else []) ++ join (lit ",") gs ++ (if point then lit "." ++ fp else []).

(** an exponent part of a pattern, 'E', '#'s and '0's, and of a numeral: 'E' or 'e', optionally a
    sign, digits *)
Definition exponent_pattern (hashes zeros_ : nat) : pystr := lit "E" ++ repeat 35 hashes ++ repeat 48 zeros_.
Definition exponent_text (upper : bool) (sign : option bool) (ep : pystr) : pystr :=
  (if upper then lit "E" else lit "e") ++ match sign with Some true => lit "-" | Some false => lit "+" | None => [] end ++ ep.

(** ** groupChar/decimalChar (C17) *)
Definition opt_list {A} (o : option A) : list A := match o with Some x => [x] | None => [] end.
Definition sep_chars (g d : option N) : list N := opt_list g ++ opt_list d.
(** thousands separators are written iff groupChar is given and there are more than 3 integer
    digits; the comma is then translated iff it is itself one of the two characters *)
Definition commas_ok (g d : option N) (c : N) (e : Z) : Prop :=
  g = None \/ In 44 (sep_chars g d) \/ (e + Z.of_nat (ndigits c) <= 3)%Z.
(** the decimal point survives *)
Definition point_ok (g d : option N) (e : Z) : Prop :=
  ~ In 46 (sep_chars g d) \/ (d <> None /\ d <> g) \/ e = 0%Z.
