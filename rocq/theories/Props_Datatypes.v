(** Property theorems C14-C20, C22.  Vocabulary: BasicSpec.v, NumericSpec.v.
    [udigit]: the decimal digit value Python's Decimal() gives to a non-ASCII character (any function);
    [babel]: babel.numbers.format_decimal (any function; only consulted when a pattern is given). *)
From Verif Require Import PyStr Json Dec Numeric NumericSpec DecProofs DecProofs2 NumericProofs GroupProofs
  PatternProofs PatternProofs2 PatternProofs5 Basic BasicSpec BasicProofs.

Definition nodigit : N -> option N := fun _ => None.
Definition nobabel : num -> pystr -> res pystr := fun _ _ => Err OtherError.

(** * C14 *)
Theorem c14_roundtrip : forall fmt b,
  (forall x, no_bar x -> fmt <> bool_format x x) ->
  bool_to_python (bool_words fmt) (bool_to_string (bool_words fmt) b) = Ok b.
Proof. exact bool_roundtrip. Qed.
Print Assumptions c14_roundtrip.
Theorem c14_read_format : forall x y s, no_bar x -> no_bar y ->
  bool_to_python (bool_words (bool_format x y)) s
  = if str_eqb s x then Ok true else if str_eqb s y then Ok false else Err ValueError.
Proof. exact bool_read_format. Qed.
Print Assumptions c14_read_format.
Theorem c14_read_default : forall fmt s, unusable fmt ->
  bool_to_python (bool_words fmt) s
  = if str_eqb s (lit "true") || str_eqb s (lit "1") then Ok true
    else if str_eqb s (lit "false") || str_eqb s (lit "0") then Ok false else Err ValueError.
Proof. exact bool_read_default. Qed.
Print Assumptions c14_read_default.
(** X = Y is accepted as a format, and false then reads back as true *)
Theorem c14_same_words_refuted : exists fmt,
  bool_to_python (bool_words fmt) (bool_to_string (bool_words fmt) false) = Ok true.
Proof. exists (JStr (lit "a|a")). reflexivity. Qed.
Print Assumptions c14_same_words_refuted.
Example c14_nonvacuous : bool_words (bool_format (lit "Yea") (lit "Nay")) = ([lit "Yea"], [lit "Nay"])
  /\ (forall x, no_bar x -> bool_format (lit "Yea") (lit "Nay") <> bool_format x x)
  /\ unusable (JStr (lit "Y|N|?")) /\ unusable JNull.
Proof.
  split; [reflexivity|]. split; [|split].
  - intros x _ E. apply (f_equal (fun j => match j with JStr s => s | _ => [] end)) in E. unfold bool_format in E. cbv beta iota in E.
    pose proof (f_equal (@length N) E) as L. rewrite !app_length in L. cbn in L.
    destruct x as [|a [|b [|c [|]]]]; cbn in L; try lia. cbn in E. injection E. intros. subst. discriminate.
  - intros x y Hx Hy E. apply (f_equal (fun j => match j with JStr s => count_char 124 s | _ => 0%nat end)) in E. cbn in E.
    assert (C : forall s, no_bar s -> count_char 124 s = 0%nat).
    { intros s Hs. unfold count_char. destruct (filter (N.eqb 124) s) as [|a l] eqn:F; [reflexivity|]. exfalso. assert (In a (filter (N.eqb 124) s)) by (rewrite F; left; reflexivity).
      apply filter_In in H. destruct H as [H1 H2]. apply N.eqb_eq in H2. subst a. apply Hs, H1. }
    unfold count_char in *. rewrite filter_app, app_length in E. rewrite (C x Hx) in E. cbn in E. rewrite (C y Hy) in E. discriminate.
  - intros x y _ _. discriminate.
Qed.

(** * C15 *)
(** reading a numeral that denotes n returns n if it is in the range of the type, and raises ValueError
    otherwise or if the numeral does not denote an integer *)
Theorem c15_read : forall udigit name r neg plus ip point fp,
  In (name, r) integer_types ->
  numeral_ok ip point fp -> fits (val_digits (ip ++ fp)) ->
  let v := val_digits (ip ++ fp) in
  let s := numeral neg plus ip point fp in
  (forall n, v = n * 10 ^ N.of_nat (length fp) -> documented_range name (signed neg n) ->
     integer_to_python udigit r nofmt s = Ok (signed neg n))
  /\ (forall n, v = n * 10 ^ N.of_nat (length fp) -> ~ documented_range name (signed neg n) ->
     integer_to_python udigit r nofmt s = Err ValueError)
  /\ ((forall n, v <> n * 10 ^ N.of_nat (length fp)) ->
     integer_to_python udigit r nofmt s = Err ValueError).
Proof. exact (fun u => integer_numeral u (fun _ _ => Err OtherError)). Qed.
Print Assumptions c15_read.
Theorem c15_roundtrip : forall udigit babel name r z, In (name, r) integer_types ->
  fits (Z.to_N (Z.abs z)) -> documented_range name z ->
  exists t, decimal_to_string babel nofmt (NInt z) = Ok t /\ integer_to_python udigit r nofmt t = Ok z.
Proof. exact integer_roundtrip. Qed.
Print Assumptions c15_roundtrip.
(** beyond 28 digits the value changes silently *)
Theorem c15_long_refuted : exists s z, s = int_str z /\ exists z', integer_to_python nodigit no_range nofmt s = Ok z' /\ z' <> z.
Proof.
  exists (lit "12345678901234567890123456789"), 12345678901234567890123456789%Z. split; [vm_compute; reflexivity|].
  exists 12345678901234567890123456790%Z. split; [vm_compute; reflexivity|discriminate].
Qed.
Print Assumptions c15_long_refuted.
(** 'INF' is not rejected with ValueError *)
Theorem c15_inf_refuted : integer_to_python nodigit no_range nofmt (lit "INF") = Err OverflowError.
Proof. vm_compute. reflexivity. Qed.
Print Assumptions c15_inf_refuted.
Example c15_nonvacuous : In (lit "byte", rng (-128) 127) integer_types /\ numeral_ok (lit "128") false [] /\ fits (val_digits (lit "128" ++ []))
  /\ numeral true false (lit "128") false [] = lit "-128" /\ val_digits (lit "128") = 128
  /\ documented_range (lit "byte") (signed true 128) /\ ~ documented_range (lit "byte") (signed false 128).
Proof.
  split; [cbn; tauto|]. split; [split; [repeat constructor; cbn; lia|split; [discriminate|reflexivity]]|]. split; [vm_compute; reflexivity|].
  repeat split; try reflexivity; try (vm_compute; congruence). intros H. vm_compute in H. destruct H as [_ H]. discriminate.
Qed.

(** * C16 *)
Theorem c16_roundtrip : forall udigit babel neg c e, (e <= 0)%Z -> fits c ->
  exists t, decimal_to_string babel nofmt (NDec (Fin neg c e)) = Ok t
    /\ exists neg', decimal_to_python udigit nofmt t = Ok (Fin neg' c e)
       /\ (neg' = neg \/ c = 0) /\ (printed_plainly c e -> neg' = neg).
Proof. exact decimal_roundtrip. Qed.
Print Assumptions c16_roundtrip.
Theorem c16_specials : forall udigit babel d, d = Inf false \/ d = Inf true \/ d = NaN false false [] ->
  exists t, decimal_to_string babel nofmt (NDec d) = Ok t /\ decimal_to_python udigit nofmt t = Ok d.
Proof. exact decimal_specials. Qed.
Print Assumptions c16_specials.
(** positive exponents: which value comes back, and that it is the right one only for two-digit coefficients *)
Theorem c16_positive_exponent_refuted : forall udigit babel neg c e, (0 < e)%Z ->
  let a := Z.to_N (e + Z.of_nat (ndigits c) - 1) in
  fits (c * 10 ^ a) ->
  exists t neg', decimal_to_string babel nofmt (NDec (Fin neg c e)) = Ok t
    /\ decimal_to_python udigit nofmt t = Ok (Fin neg' (c * 10 ^ a) (-1))
    /\ (neg' = neg \/ c = 0)
    /\ (dec_eq (Fin neg c e) (Fin neg' (c * 10 ^ a) (-1)) <-> c = 0 \/ ndigits c = 2%nat).
Proof. exact decimal_positive_exponent. Qed.
Print Assumptions c16_positive_exponent_refuted.
(** Decimal('5E3') is written as 500.0 *)
Example c16_witness : decimal_to_string nobabel nofmt (NDec (Fin false 5 3)) = Ok (lit "500.0").
Proof. vm_compute. reflexivity. Qed.
Example c16_nonvacuous : fits 12345 /\ decimal_to_string nobabel nofmt (NDec (Fin true 12345 (-12))) = Ok (lit "-0.000000012345")
  /\ decimal_to_python nodigit nofmt (lit "-0.000000012345") = Ok (Fin true 12345 (-12)).
Proof. repeat split; vm_compute; reflexivity. Qed.

(** * C17 *)
Theorem c17_chars : forall udigit babel g d neg c e,
  (forall x, g = Some x -> sep_char x) -> (forall x, d = Some x -> sep_char x) ->
  printed_plainly c e -> fits c ->
  exists t, decimal_to_string babel (char_fmt g d) (NDec (Fin neg c e)) = Ok t
    /\ (commas_ok g d c e -> point_ok g d e -> decimal_to_python udigit (char_fmt g d) t = Ok (Fin neg c e))
    /\ (~ commas_ok g d c e -> decimal_to_python udigit (char_fmt g d) t = Err ValueError)
    /\ (commas_ok g d c e -> ~ point_ok g d e -> decimal_to_python udigit (char_fmt g d) t = Ok (Fin neg c 0)).
Proof. exact group_decimal_chars. Qed.
Print Assumptions c17_chars.
(** the usual choices always work *)
Corollary c17_usual : forall udigit babel g d neg c e,
  (g, d) = (Some 44, Some 46) \/ (g, d) = (Some 46, Some 44) \/ (g, d) = (Some 44, None) ->
  printed_plainly c e -> fits c ->
  exists t, decimal_to_string babel (char_fmt g d) (NDec (Fin neg c e)) = Ok t
    /\ decimal_to_python udigit (char_fmt g d) t = Ok (Fin neg c e).
Proof.
  intros udigit babel g d neg c e H P F.
  destruct (c17_chars udigit babel g d neg c e) as (t & E & K & _); auto.
  - destruct H as [H|[H|H]]; injection H as -> ->; intros x Hx; injection Hx as <-; unfold sep_char; lia.
  - destruct H as [H|[H|H]]; injection H as -> ->; intros x Hx; try discriminate; injection Hx as <-; unfold sep_char; lia.
  - exists t. split; [exact E|]. apply K.
    + right. left. destruct H as [H|[H|H]]; injection H as -> ->; cbn; tauto.
    + destruct H as [H|[H|H]]; injection H as -> ->; [right; left; split; congruence..|left; cbn; intros [X|[]]; discriminate].
Qed.
Print Assumptions c17_usual.
Theorem c17_space_refuted : decimal_to_string nobabel (char_fmt (Some 32) None) (NDec (Fin false 1234 0)) = Ok (lit "1,234")
  /\ decimal_to_python nodigit (char_fmt (Some 32) None) (lit "1,234") = Err ValueError.
Proof. split; vm_compute; reflexivity. Qed.
Print Assumptions c17_space_refuted.
Theorem c17_point_refuted : decimal_to_string nobabel (char_fmt (Some 46) None) (NDec (Fin false 5 (-1))) = Ok (lit "05")
  /\ decimal_to_python nodigit (char_fmt (Some 46) None) (lit "05") = Ok (Fin false 5 0).
Proof. split; vm_compute; reflexivity. Qed.
Print Assumptions c17_point_refuted.
Example c17_nonvacuous : decimal_to_string nobabel (char_fmt (Some 46) (Some 44)) (NDec (Fin true 123456789 (-2))) = Ok (lit "-1.234.567,89")
  /\ printed_plainly 123456789 (-2) /\ fits 123456789.
Proof. repeat split; vm_compute; (reflexivity || discriminate). Qed.

(** * C18 *)
Theorem c18_percent : forall udigit neg plus ip point fp c k,
  numeral_ok ip point fp -> fits (val_digits (ip ++ fp)) ->
  (c = 37 /\ k = 2%Z) \/ (c = 8240 /\ k = 3%Z) ->
  decimal_to_python udigit nofmt (numeral neg plus ip point fp ++ [c]) =
  Ok (Fin neg (val_digits (ip ++ fp)) (- Z.of_nat (length fp) - k)).
Proof. exact read_percent. Qed.
Print Assumptions c18_percent.
(** not exactly "numeral followed by one sign": '5%%' also reads as 0.05 *)
Theorem c18_double_percent_refuted : decimal_to_python nodigit nofmt (lit "5%%") = Ok (Fin false 5 (-2)).
Proof. vm_compute. reflexivity. Qed.
Print Assumptions c18_double_percent_refuted.
Example c18_nonvacuous : decimal_to_python nodigit nofmt (lit "-12.5%") = Ok (Fin true 125 (-3)).
Proof. vm_compute. reflexivity. Qed.

(** * C19 *)
Theorem c19_plain : forall hashes zs frac neg plus ip (point : bool) fp,
  numeral_ok ip point fp ->
  exists P, number_pattern (plain_pattern hashes zs frac) = Ok P
    /\ (is_valid P (numeral neg plus ip point fp) = true <->
        (zs = 0 \/ zs <= significant_digits ip)%nat /\ frac_ok frac (length fp)).
Proof. exact plain_pattern_valid. Qed.
Print Assumptions c19_plain.
Theorem c19_grouped : forall hashes q p k frac neg plus gs (point : bool) fp,
  (k <= p)%nat -> (0 < p)%nat -> (forall n, q = Some n -> (0 < n)%nat) ->
  Forall (fun g => Forall (fun c => 48 <= c <= 57) g) gs -> gs <> [] -> numeral_ok (concat gs) point fp ->
  exists P, number_pattern (grouped_pattern hashes q p k frac) = Ok P
    /\ (is_valid P (grouped_numeral neg plus gs point fp) = true <->
        (k = 0 \/ k <= significant_digits (concat gs))%nat
        /\ groups_ok (match q with Some n => n | None => p end) p gs
        /\ frac_ok frac (length fp)).
Proof. exact grouped_pattern_valid. Qed.
Print Assumptions c19_grouped.
(** reading with a pattern: the value if the pattern admits the text, ValueError otherwise *)
Theorem c19_read : forall udigit (p : pystr) P neg plus (gs : list pystr) (point : bool) fp,
  p <> [] -> number_pattern p = Ok P ->
  Forall (fun g => Forall (fun c => 48 <= c <= 57) g) gs -> Forall (fun g => g <> []) gs -> gs <> [] ->
  numeral_ok (concat gs) point fp -> fits (val_digits (concat gs ++ fp)) ->
  (In 44 p \/ exists g, gs = [g]) ->
  decimal_to_python udigit (pat_fmt p) (grouped_numeral neg plus gs point fp) =
  if is_valid P (grouped_numeral neg plus gs point fp)
  then Ok (Fin neg (val_digits (concat gs ++ fp)) (- Z.of_nat (length fp)))
  else Err ValueError.
Proof. exact read_pattern. Qed.
Print Assumptions c19_read.
(** patterns with an exponent: 'E' and [i] hashes, [j] zeros after a pattern with a fraction.  A
    numeral with a point and an exponent is admitted iff the pattern without exponent admits the
    numeral without exponent and, if the pattern's exponent has a digit, the exponent has at most
    [i + j] digits; a numeral without exponent is admitted as by the pattern without exponent *)
Theorem c19_exponent : forall h z a b i j neg plus ip (point : bool) fp up sign ep,
  numeral_ok ip point fp -> Forall (fun c => 48 <= c <= 57) ep ->
  exists P, number_pattern (plain_pattern h z (Some (a, b)) ++ exponent_pattern i j) = Ok P
    /\ (is_valid P (numeral neg plus ip point fp) = true <->
        (z = 0 \/ z <= significant_digits ip)%nat /\ (a <= length fp <= a + b)%nat)
    /\ (point = true ->
        (is_valid P (numeral neg plus ip point fp ++ exponent_text up sign ep) = true <->
         (z = 0 \/ z <= significant_digits ip)%nat /\ (a <= length fp <= a + b)%nat /\ (i + j = 0 \/ length ep <= i + j)%nat)).
Proof.
  intros h z a b i j neg plus ip point fp up sign ep Hn Hep. pose proof Hn as (Hd & _ & _). apply Forall_app in Hd. destruct Hd as [Hip Hfp].
  destruct (plain_shape h z a b) as (sh & Hsh & Esh). destruct (exponent_valid (plain_pattern h z (Some (a, b))) i j (ex_intro _ sh (ex_intro _ a (ex_intro _ b (conj Hsh Esh))))) as (P & P' & E1 & E2 & V).
  destruct (plain_pattern_valid h z (Some (a, b)) neg plus ip point fp Hn) as (P0 & E0 & V0). rewrite E1 in E0. apply Ok_inj in E0. subst P0.
  destruct (V neg plus [ip] fp (Forall_cons _ Hip (Forall_nil _)) Hfp) as [Va Vb]. rewrite grouped_one in Vb. exists P'. split; [exact E2|]. split.
  - specialize (Va point). rewrite grouped_one in Va. rewrite Va. exact V0.
  - intros ->. unfold exponent_text. destruct up, sign as [[|]|]; cbn [lit app]; [pose proof (Vb 69 (lit "-") ep Hep (or_introl eq_refl) (or_intror (or_intror eq_refl))) as W|pose proof (Vb 69 (lit "+") ep Hep (or_introl eq_refl) (or_intror (or_introl eq_refl))) as W|pose proof (Vb 69 [] ep Hep (or_introl eq_refl) (or_introl eq_refl)) as W|pose proof (Vb 101 (lit "-") ep Hep (or_intror eq_refl) (or_intror (or_intror eq_refl))) as W|pose proof (Vb 101 (lit "+") ep Hep (or_intror eq_refl) (or_intror (or_introl eq_refl))) as W|pose proof (Vb 101 [] ep Hep (or_intror eq_refl) (or_introl eq_refl)) as W]; cbn [lit app] in W; (etransitivity; [exact W|]); rewrite V0; unfold frac_ok; tauto.
Qed.
Print Assumptions c19_exponent.
Theorem c19_exponent_grouped : forall h q p k a b i j neg plus gs (point : bool) fp up sign ep,
  (k <= p)%nat -> (0 < p)%nat -> (forall n, q = Some n -> (0 < n)%nat) ->
  Forall (fun g => Forall (fun c => 48 <= c <= 57) g) gs -> gs <> [] -> numeral_ok (concat gs) point fp -> Forall (fun c => 48 <= c <= 57) ep ->
  exists P, number_pattern (grouped_pattern h q p k (Some (a, b)) ++ exponent_pattern i j) = Ok P
    /\ (is_valid P (grouped_numeral neg plus gs point fp) = true <->
        (k = 0 \/ k <= significant_digits (concat gs))%nat /\ groups_ok (match q with Some n => n | None => p end) p gs /\ (a <= length fp <= a + b)%nat)
    /\ (point = true ->
        (is_valid P (grouped_numeral neg plus gs point fp ++ exponent_text up sign ep) = true <->
         (k = 0 \/ k <= significant_digits (concat gs))%nat /\ groups_ok (match q with Some n => n | None => p end) p gs /\ (a <= length fp <= a + b)%nat
         /\ (i + j = 0 \/ length ep <= i + j)%nat)).
Proof.
  intros h q p k a b i j neg plus gs point fp up sign ep Hk Hp Hq Hgs Hne Hn Hep. pose proof Hn as (Hd & _ & _). apply Forall_app in Hd. destruct Hd as [_ Hfp].
  destruct (grouped_shape h q p k a b) as (sh & Hsh & Esh). destruct (exponent_valid (grouped_pattern h q p k (Some (a, b))) i j (ex_intro _ sh (ex_intro _ a (ex_intro _ b (conj Hsh Esh))))) as (P & P' & E1 & E2 & V).
  destruct (grouped_pattern_valid h q p k (Some (a, b)) neg plus gs point fp Hk Hp Hq Hgs Hne Hn) as (P0 & E0 & V0). rewrite E1 in E0. apply Ok_inj in E0. subst P0.
  destruct (V neg plus gs fp Hgs Hfp) as [Va Vb]. exists P'. split; [exact E2|]. split.
  - rewrite (Va point). exact V0.
  - intros ->. unfold exponent_text. destruct up, sign as [[|]|]; cbn [lit app]; [pose proof (Vb 69 (lit "-") ep Hep (or_introl eq_refl) (or_intror (or_intror eq_refl))) as W|pose proof (Vb 69 (lit "+") ep Hep (or_introl eq_refl) (or_intror (or_introl eq_refl))) as W|pose proof (Vb 69 [] ep Hep (or_introl eq_refl) (or_introl eq_refl)) as W|pose proof (Vb 101 (lit "-") ep Hep (or_intror eq_refl) (or_intror (or_intror eq_refl))) as W|pose proof (Vb 101 (lit "+") ep Hep (or_intror eq_refl) (or_intror (or_introl eq_refl))) as W|pose proof (Vb 101 [] ep Hep (or_intror eq_refl) (or_introl eq_refl)) as W]; cbn [lit app] in W; (etransitivity; [exact W|]); rewrite V0; unfold frac_ok; tauto.
Qed.
Print Assumptions c19_exponent_grouped.
(** decimals and integers have no exponent, whatever the pattern says: exponent patterns serve floats *)
Theorem c19_decimal_no_exponent : forall udigit f s, In 69 s \/ In 101 s -> decimal_to_python udigit f s = Err ValueError.
Proof.
  intros udigit f s H. unfold decimal_to_python. replace (has_e s) with true; [reflexivity|]. symmetry. unfold has_e. apply orb_true_iff. rewrite !char_mem_In. tauto.
Qed.
Print Assumptions c19_decimal_no_exponent.
(** a float with a pattern: Python's float of the same text if the pattern admits it, ValueError otherwise *)
Theorem c19_float : forall (F : Type) (float_of : pystr -> option F) p P s x, p <> [] -> number_pattern p = Ok P ->
  (float_to_python float_of (Some p) s = Ok x <-> is_valid P s = true /\ float_of s = Some x)
  /\ (forall e, float_to_python float_of (Some p) s = Err e -> e = ValueError).
Proof.
  intros F fo p P s x Hp HP. unfold float_to_python. destruct p as [|c p]; [congruence|]. cbn [truthy_str]. rewrite HP. cbn [bind]. destruct (is_valid P s), (fo s) as [y|]; cbn [negb]; split; try (split; [intros H|intros [H1 H2]]); try congruence; try (intros e H; congruence).
  split; [reflexivity|]. apply Ok_inj in H. subst. reflexivity.
Qed.
Print Assumptions c19_float.
(** without a point the exponent is counted with the integer digits: '5E12' has three of them *)
Theorem c19_exponent_no_point_refuted :
  exists P, number_pattern (lit "000.#E00") = Ok P /\ is_valid P (lit "5E12") = true /\ is_valid P (lit "5.E12") = false.
Proof. eexists. split; [reflexivity|]. split; vm_compute; reflexivity. Qed.
Print Assumptions c19_exponent_no_point_refuted.
(** a sign in the exponent of the pattern ends it: 'E+00' sets no bound *)
Theorem c19_exponent_sign_refuted :
  exists P, number_pattern (lit "0.0E+00") = Ok P /\ is_valid P (lit "1.5E+12345") = true.
Proof. eexists. split; [reflexivity|]. vm_compute; reflexivity. Qed.
Print Assumptions c19_exponent_sign_refuted.
Example c19_exponent_nonvacuous : plain_pattern 0 1 (Some (1, 2)%nat) ++ exponent_pattern 1 1 = lit "0.0##E#0"
  /\ float_to_python (fun s => Some s) (Some (lit "0.0##E#0")) (lit "1.25E-3") = Ok (lit "1.25E-3")
  /\ float_to_python (fun s => Some s) (Some (lit "0.0##E#0")) (lit "1.25e+103") = Err ValueError.
Proof. repeat split; vm_compute; reflexivity. Qed.
(** leading zeros do not count as digits *)
Theorem c19_zero_padding_refuted : decimal_to_python nodigit (pat_fmt (lit "000")) (lit "005") = Err ValueError.
Proof. vm_compute. reflexivity. Qed.
Print Assumptions c19_zero_padding_refuted.
Example c19_nonvacuous : plain_pattern 2 2 (Some (1, 2)%nat) = lit "##00.0##"
  /\ decimal_to_python nodigit (pat_fmt (lit "##00.0##")) (lit "12.34") = Ok (Fin false 1234 (-2))
  /\ grouped_pattern 1 None 3 1 None = lit "#,##0"
  /\ decimal_to_python nodigit (pat_fmt (lit "#,##0")) (lit "1,234,567") = Ok (Fin false 1234567 0)
  /\ decimal_to_python nodigit (pat_fmt (lit "#,##0")) (lit "1,2345,67") = Err ValueError
  /\ grouped_pattern 1 (Some 2%nat) 3 1 None = lit "#,##,##0"
  /\ decimal_to_python nodigit (pat_fmt (lit "#,##,##0")) (lit "12,34,567") = Ok (Fin false 1234567 0).
Proof. repeat split; vm_compute; reflexivity. Qed.

(** * C20 *)
Theorem c20_hex_roundtrip : forall b, is_bytes b -> hex_to_python (hex_to_string b) = Ok b.
Proof. exact hex_roundtrip. Qed.
Print Assumptions c20_hex_roundtrip.
Theorem c20_hex_valid : forall s, hex_text s ->
  exists b, hex_to_python s = Ok b /\ is_bytes b /\ hex_to_string b = ascii_upper s.
Proof. exact hex_valid. Qed.
Print Assumptions c20_hex_valid.
Theorem c20_hex_invalid : forall s, ~ hex_text s -> hex_to_python s = Err ValueError.
Proof. exact hex_invalid. Qed.
Print Assumptions c20_hex_invalid.
Theorem c20_base64_roundtrip : forall b, is_bytes b -> b64_to_python (b64_to_string b) = Ok b.
Proof. exact b64_roundtrip. Qed.
Print Assumptions c20_base64_roundtrip.
(** everything outside the alphabet is ignored, not rejected *)
Theorem c20_base64_ignores : forall s, Forall (fun c => c < 128) s -> b64_to_python s = b64_to_python (filter b64_letter s).
Proof. exact b64_ignores. Qed.
Print Assumptions c20_base64_ignores.
Example c20_nonvacuous : hex_text (lit "00fFaB") /\ hex_to_python (lit "00fFaB") = Ok [0; 255; 171] /\ hex_to_python (lit "0") = Err ValueError
  /\ b64_to_string [97; 98; 99; 255] = lit "YWJj/w==" /\ b64_to_python (lit "Y!WJj") = Ok [97; 98; 99].
Proof. split; [split; [unfold hex_char; repeat constructor; cbn; lia|exists 3%nat; reflexivity]|]. repeat split; vm_compute; reflexivity. Qed.

(** * C22 *)
Theorem c22_normalized : forall v,
  let r := norm_to_python v in
  (forall c, In c r -> c <> 13 /\ c <> 10 /\ c <> 9)
  /\ (r = [] \/ exists a b, (exists m, r = a :: m) /\ (exists m, r = m ++ [b]) /\ is_space a = false /\ is_space b = false)
  /\ norm_to_python r = r.
Proof. exact normalized_spec. Qed.
Print Assumptions c22_normalized.
(** nothing but CR, LF, TAB is changed inside *)
Theorem c22_keeps : forall v, (v = [] \/ exists a b, (exists m, v = a :: m) /\ (exists m, v = m ++ [b]) /\ is_space a = false /\ is_space b = false) ->
  norm_to_python v = map (fun c => if (c =? 13) || (c =? 10) || (c =? 9) then 32 else c) v.
Proof. exact normalized_keeps. Qed.
Print Assumptions c22_keeps.
(** [word]: the characters \w matches *)
Theorem c22_nmtoken : forall word v,
  (word_text word v -> nmtoken_to_python None word v = Ok v)
  /\ (~ word_text word v -> nmtoken_to_python None word v = Err ValueError).
Proof. exact nmtoken_spec. Qed.
Print Assumptions c22_nmtoken.
Example c22_nonvacuous : norm_to_python (lit " a" ++ [9; 10] ++ lit "b ") = lit "a  b"
  /\ nmtoken_to_python None (fun c => is_letter c || is_digit c || (c =? 95)) (lit "a-1:b") = Ok (lit "a-1:b")
  /\ nmtoken_to_python None (fun c => is_letter c || is_digit c || (c =? 95)) (lit "a,b") = Err ValueError.
Proof. repeat split; vm_compute; reflexivity. Qed.
