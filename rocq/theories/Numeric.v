(** datatypes.decimal, datatypes.integer and its subtypes, datatypes.NumberPattern. *)
From Verif Require Import PyStr Dec.

Definition truthy_str (o : option pystr) : option pystr :=
  match o with Some [] => None | _ => o end.
Definition or_str (o : option pystr) (d : pystr) : pystr :=
  match truthy_str o with Some s => s | None => d end.

(** s.partition(c) for a one character separator; (s, '', '') if absent *)
Fixpoint partition1 (c : N) (s : pystr) : pystr * bool * pystr :=
  match s with
  | [] => ([], false, [])
  | x :: s' => if x =? c then ([], true, s')
               else let r := partition1 c s' in (x :: fst (fst r), snd (fst r), snd r)
  end.
Definition before (c : N) (s : pystr) : pystr := fst (fst (partition1 c s)).
Definition after (c : N) (s : pystr) : pystr := snd (partition1 c s).
Definition last_or (d : pystr) (l : list pystr) : pystr := last l d.

(** ** NumberPattern: datatypes.py:1161-1283 *)
Record numpat := { np_positive : pystr }.

(** datatypes.py:1172-1176; the negative sub-pattern is never used *)
Definition number_pattern (p : pystr) : res numpat :=
  if Nat.leb (count_char 59 p) 1 then Ok {| np_positive := before 59 p |} else Err AssertionError.

(** datatypes.py:1178-1182 *)
Definition primary_grouping_size (P : numpat) : option nat :=
  let comps := split (lit ",") (before 46 (np_positive P)) in
  match comps with
  | _ :: _ :: _ => let c := last_or [] comps in Some (count_char 35 c + count_char 48 c)%nat
  | _ => None
  end.
(** datatypes.py:1184-1189 *)
Definition secondary_grouping_size (P : numpat) : option nat :=
  match split (lit ",") (before 46 (np_positive P)) with
  | _ :: c :: _ :: _ => Some (count_char 35 c + count_char 48 c)%nat
  | _ => primary_grouping_size P
  end.
(** datatypes.py:1191-1196 [re.search('([0]+)$', integral_part)]: the zeros at the end
    (a trailing line feed before '$' cannot occur in a checked pattern) *)
Fixpoint count_prefix (c : N) (s : pystr) : nat :=
  match s with x :: s' => if x =? c then S (count_prefix c s') else O | [] => O end.
Definition min_digits_before (P : numpat) : nat :=
  count_prefix 48 (rev (before 46 (np_positive P))).
(** datatypes.py:1198-1209 *)
Fixpoint exponent_count (s : pystr) : nat :=
  match s with
  | c :: s' => if (c =? 48) || (c =? 35) then S (exponent_count s')
               else if c =? 44 then exponent_count s' else O
  | [] => O
  end.
Definition exponent_digits (P : numpat) : nat :=
  exponent_count (after 101 (ascii_lower (np_positive P))).
(** datatypes.py:1211-1220 *)
Fixpoint decimal_count (s : pystr) : nat :=
  match s with
  | c :: s' => if c =? 69 then O
               else if (c =? 35) || (c =? 48) then S (decimal_count s') else decimal_count s'
  | [] => O
  end.
Definition decimal_digits (P : numpat) : nat := decimal_count (after 46 (np_positive P)).
(** datatypes.py:1222-1231 *)
Fixpoint significant_count (s : pystr) : nat :=
  match s with
  | c :: s' => if c =? 48 then S (significant_count s')
               else if (c =? 69) || (c =? 35) then O else significant_count s'
  | [] => O
  end.
Definition significant_decimal_digits (P : numpat) : nat := significant_count (after 46 (np_positive P)).

(** datatypes.py:1234-1235: characters of ss not in '.,E+-%‰' *)
Definition pat_digits (s : pystr) : pystr :=
  filter (fun c => negb (char_mem c [46; 44; 69; 43; 45; 37; 8240])) s.
(** datatypes.py:1240-1253 *)
Fixpoint significant_loop (skip leading : bool) (s : pystr) : nat * bool :=
  match s with
  | [] => (O, leading)
  | c :: s' =>
      if char_mem c [43; 45; 37] then significant_loop skip leading s'
      else if (c =? 48) && skip then significant_loop skip true s'
      else let r := significant_loop (if c =? 48 then skip else false) leading s' in (S (fst r), snd r)
  end.
Definition significant_length (s : pystr) : nat :=
  let r := significant_loop true false s in
  if Nat.eqb (fst r) 0 && snd r then 1%nat else fst r.

(** datatypes.py:1233-1283 is_valid *)
Definition is_valid (P : numpat) (s : pystr) : bool :=
  let integral := before 46 s in
  let dpart := ascii_lower (after 46 s) in
  let decimal_part := before 101 dpart in
  let groups := split (lit ",") integral in
  let significant := significant_length (concat groups) in
  let low := ascii_lower s in
  let last_group := pat_digits (last_or [] groups) in
  negb (Nat.ltb 0 (min_digits_before P) && Nat.ltb significant (min_digits_before P))
  && match primary_grouping_size P with
     | Some (S k) =>
         negb (Nat.ltb (S k) (length last_group))
         && negb (Nat.ltb 1 (length groups) && Nat.ltb (length last_group) (S k))
     | _ => true
     end
  && match secondary_grouping_size P with
     | Some (S k) =>
         negb (Nat.ltb 1 (length groups))
         || match removelast groups with
            | [] => true
            | g :: gs => Nat.leb (length (pat_digits g)) (S k)
                         && forallb (fun g => Nat.eqb (length (pat_digits g)) (S k)) gs
            end
     | _ => true
     end
  && match decimal_part with [] => true | _ => Nat.leb (length (pat_digits decimal_part)) (decimal_digits P) end
  && (Nat.eqb (significant_decimal_digits P) 0
      || match decimal_part with [] => false | _ => Nat.leb (significant_decimal_digits P) (length (pat_digits decimal_part)) end)
  && negb (Nat.ltb 0 (exponent_digits P) && char_mem 101 low
           && Nat.ltb (exponent_digits P) (length (pat_digits (last_or [] (split (lit "e") low))))).

(** ** decimal: datatypes.py:480-604 *)
(** the keyword arguments made of datatype.format by derived_description: a dict of
    these three, or just a pattern (datatypes.py:523-528) *)
Record numfmt := { nf_pattern : option pystr; nf_decimal : option pystr; nf_group : option pystr }.
Definition nofmt : numfmt := {| nf_pattern := None; nf_decimal := None; nf_group := None |}.

Section Numeric.
Variable udigit : N -> option N.

Definition has_e (s : pystr) : bool := char_mem 101 s || char_mem 69 s.
Definition pat_has (c : N) (p : option pystr) : bool :=
  match truthy_str p with Some s => char_mem c s | None => false end.

(** datatypes.py:530-566 decimal.to_python for a str argument *)
Definition decimal_to_python (f : numfmt) (v : pystr) : res dec :=
  if has_e v then Err ValueError
  else
    let g0 := or_str (nf_group f) (lit ",") in
    if contains (g0 ++ g0) v then Err ValueError
    else
      let grp := match nf_group f with None => if pat_has 44 (nf_pattern f) then Some (lit ",") else None | g => g end in
      let dc := match nf_decimal f with None => if pat_has 46 (nf_pattern f) then Some (lit ".") else None | d => d end in
      valid <- match truthy_str (nf_pattern f) with
               | None => Ok true
               | Some p => P <- number_pattern p ;;
                           Ok (is_valid P (replace (or_str dc (lit ".")) (lit ".")
                                            (replace (or_str grp (lit ",")) (lit ",") v)))
               end ;;
      if negb valid then Err ValueError
      else if str_eqb v (lit "INF") then Ok (Inf false)
      else if str_eqb v (lit "-INF") then Ok (Inf true)
      else if str_eqb v (lit "NaN") then Ok (NaN false false [])
      else
        let v := match truthy_str grp with Some g => replace g [] v | None => v end in
        let v := match truthy_str dc with
                 | Some d => if str_eqb d (lit ".") then v else replace d (lit ".") v
                 | None => v
                 end in
        let vf := if char_mem 37 v then (replace1 37 [] v, 2%Z)
                  else if char_mem 8240 v then (replace1 8240 [] v, 3%Z)
                  else (v, 0%Z) in
        match dec_of_str udigit (fst vf) with
        | None => Err ValueError
        | Some d => match dec_scale d (snd vf) with Ok r => Ok r | Err _ => Err ValueError end
        end.
(** datatypes.py:549-550: the warning about special values; errors come before it *)
Definition special_warning (f : numfmt) (v : pystr) : bool :=
  str_mem v [lit "INF"; lit "-INF"; lit "NaN"] && match decimal_to_python f v with Ok _ => true | Err _ => false end.

(** What decimal.to_string gets: Decimals or (from the integer types) ints *)
Inductive num := NDec (d : dec) | NInt (z : Z).
Definition num_format (grouped : bool) (v : num) : pystr :=
  match v with
  | NDec d => dec_format grouped d
  | NInt z => match z with
              | Zneg p => 45 :: (if grouped then group3 (digits_of (Npos p)) else digits_of (Npos p))
              | _ => if grouped then group3 (digits_of (Z.to_N z)) else digits_of (Z.to_N z)
              end
  end.
Definition num_neg (v : num) : res bool :=
  match v with NDec d => dec_neg d | NInt z => Ok (Z.ltb z 0) end.

(** babel.numbers.format_decimal(v, pattern, 'en'): external, an oracle *)
Variable babel : num -> pystr -> res pystr.

(** datatypes.py:585-591: expansion of scientific notation *)
Definition expand (neg : bool) (v : pystr) : res pystr :=
  let low := ascii_lower v in
  let digits := filter (fun c => negb ((c =? 46) || (c =? 45))) (before 101 low) in
  let es := after 101 low in
  match es with
  | c :: ds =>
      if ((c =? 43) || (c =? 45)) && all_digits ds then
        let n := val_digits ds in
        let pad := repeat 48 (N.to_nat n - 1) in
        if (c =? 43) && negb (n =? 0) then Ok (sign_str neg ++ digits ++ pad ++ lit ".0")
        else Ok (sign_str neg ++ lit "0." ++ pad ++ digits)
      else Err ValueError
  | [] => Err ValueError
  end.

(** datatypes.py:568-604 decimal.to_string *)
Definition decimal_to_string (f : numfmt) (v : num) : res pystr :=
  let plain := num_format false v in
  if str_eqb plain (lit "Infinity") then Ok (lit "INF")
  else if str_eqb plain (lit "-Infinity") then Ok (lit "-INF")
  else if str_eqb plain (lit "NaN") then Ok (lit "NaN")
  else match truthy_str (nf_pattern f) with
       | Some p =>
           s <- babel v p ;;
           let s := match truthy_str (nf_decimal f) with Some d => replace (lit ".") d s | None => s end in
           Ok (match truthy_str (nf_group f) with Some g => replace (lit ",") g s | None => s end)
       | None =>
           neg <- num_neg v ;;
           let s := num_format (match nf_group f with None => false | _ => true end) v in
           if has_e s then expand neg s
           else match truthy_str (nf_decimal f), truthy_str (nf_group f) with
                | None, None => Ok s
                | _, _ =>
                    let dc := match nf_decimal f with Some x => x | None => [] end in
                    let gc := match nf_group f with Some x => x | None => [] end in
                    Ok (flat_map (fun c => if char_mem c (dc ++ gc)
                                           then (if c =? 44 then gc else if c =? 46 then dc else [])
                                           else [c]) s)
                end
       end.

(** ** integer and subtypes: datatypes.py:607-806 *)
(** bounds; None = no range attribute or an infinite bound *)
Record irange := { r_min : option Z; r_max : option Z }.
Definition in_range (r : irange) (z : Z) : bool :=
  match r_min r with Some a => Z.leb a z | None => true end
  && match r_max r with Some b => Z.leb z b | None => true end.
(** datatypes.py:614-626 *)
Definition integer_to_python (r : irange) (f : numfmt) (v : pystr) : res Z :=
  d <- decimal_to_python f v ;;
  n <- dec_as_int d ;;
  match n with
  | Some z => if in_range r z then Ok z else Err ValueError
  | None => Err ValueError
  end.
End Numeric.

(** datatypes.py:833-842 _float.to_python of a str (float, number, double): Python's float() is an
    oracle, None where it raises ValueError; the other format keys are ignored *)
Definition float_to_python {F : Type} (float_of : pystr -> option F) (pattern : option pystr) (v : pystr) : res F :=
  valid <- match truthy_str pattern with None => Ok true | Some p => P <- number_pattern p ;; Ok (is_valid P v) end ;;
  if negb valid then Err ValueError else match float_of v with Some x => Ok x | None => Err ValueError end.

(** the registered integer types: name and range, datatypes.py:607-806 *)
Definition no_range : irange := {| r_min := None; r_max := None |}.
Definition rng (a b : Z) : irange := {| r_min := Some a; r_max := Some b |}.
Definition integer_types : list (pystr * irange) :=
  [ (lit "integer", no_range);
    (lit "int", no_range);
    (lit "unsignedInt", rng 0 4294967295);
    (lit "unsignedShort", rng 0 65535);
    (lit "unsignedLong", rng 0 18446744073709551615);
    (lit "unsignedByte", rng 0 255);
    (lit "short", rng (-32768) 32767);
    (lit "long", rng (-9223372036854775808) 9223372036854775807);
    (lit "byte", rng (-128) 127);
    (lit "nonNegativeInteger", {| r_min := Some 0%Z; r_max := None |});
    (lit "positiveInteger", {| r_min := Some 1%Z; r_max := None |});
    (lit "nonPositiveInteger", {| r_min := None; r_max := Some 0%Z |});
    (lit "negativeInteger", {| r_min := None; r_max := Some (-1)%Z |}) ].
