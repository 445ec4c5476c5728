(** C54: cell values in JSON. *)
From Verif Require Import PyStr Dec DecProofs Numeric Dates DateSpec DateProofs DateProofs2 Fmtval FmtvalSpec FmtvalProofs FmtvalProofs2.
From Coq Require Import ZifyBool ZifyN ZifyNat.

Section C54.
Context {Fl Du Ur : Type}.
Variable to_float : dec -> pyfloat Fl.
Variable formatted : pystr -> Du + list N -> res pystr.
Variable unsplit : Ur -> pystr.
Notation format_value := (@format_value Fl Du Ur to_float formatted unsplit).

(** Dates and times are written as yyyy-MM-dd, HH:mm:ss and yyyy-MM-ddTHH:mm:ss, with as many digits after the decimal point
    as needed and the timezone (Z for UTC), unless there are both a fraction of a second and a timezone *)
Theorem c54_literal : forall base v, dt_ok (fst v) = true -> zone_ok (snd v) -> snd v = None \/ us (fst v) = 0 \/ base = lit "date" ->
  exists t, format_value (PvDate v) (Some (Some base)) = Ok (PvStr t) /\ literal base v t.
Proof.
  intros base v D Z C. eexists; split; [reflexivity|]. apply (format_literal base v D Z C).
Qed.
(** ... and that determines the text *)
Theorem c54_literal_unique : forall base v t t', literal base v t -> literal base v t' -> t = t'.
Proof. intros base v t t' (w & W & ->) (w' & W' & ->). rewrite (fraction_unique _ _ _ W W'). reflexivity. Qed.
(** Without a column it is that of a dateTime *)
Theorem c54_no_column : forall v, dt_ok (fst v) = true -> zone_ok (snd v) -> snd v = None \/ us (fst v) = 0 ->
  exists t, format_value (PvDate v) None = Ok (PvStr t) /\ literal (lit "dateTime") v t.
Proof.
  intros v D Z C. eexists; split; [reflexivity|].
  destruct (format_literal (lit "dateTime") v D Z) as [L E]; [tauto|]. rewrite E by discriminate. exact L.
Qed.

(** The literal of a date, read with the datatype date, is the date with its timezone.
    ([iso]: dateutil's isoparse, which reads such dates or fails) *)
Theorem c54_date_read_back : forall iso today v t, dt_ok (fst v) = true -> zone_ok (snd v) ->
  (forall x, iso (date_text iso_date x) = None \/ iso (date_text iso_date x) = Some (midnight x, None)) ->
  format_value (PvDate v) (Some (Some (lit "date"))) = Ok (PvStr t) ->
  exists F, dt_format_and_regex (lit "yyyy-MM-dd") false = Ok F /\ date_to_python iso today (f_items F) t = Ok (midnight (fst v), snd v).
Proof.
  intros iso today [x o] t D Z I H. cbn [fst snd] in *.
  destruct (c54_literal (lit "date") (x, o) D Z) as (t' & H' & L); [auto|]. rewrite H in H'. injection H' as <-.
  destruct L as (w & W & E). cbn [fst snd] in *. change (str_eqb (lit "date") (lit "date")) with true in E. cbv iota in E. subst t.
  exists {| f_items := kind_items (KDate iso_date); f_marker := None |}. split; [apply (kind_format_ok (KDate iso_date)); left; reflexivity|].
  apply date_back; auto.
Qed.
(** The literal of a time, read with the datatype time, is the time with its timezone (the day is the current one); fractions need a format that has them *)
Theorem c54_time_read_back : forall today n v t, dt_ok (fst v) = true -> zone_ok (snd v) -> snd v = None \/ us (fst v) = 0 ->
  dt_ok (at_day today (fst v)) = true -> (n = 6)%nat \/ us (fst v) = 0 ->
  format_value (PvDate v) (Some (Some (lit "time"))) = Ok (PvStr t) ->
  exists F, dt_format_and_regex (lit "HH:mm:ss" ++ match n with O => [] | _ => lit "." ++ repeat 83 n end) true = Ok F /\
    time_to_python today (f_items F) t = Ok (at_day today (fst v), snd v).
Proof.
  intros today n [x o] t D Z C T Hn H. cbn [fst snd] in *.
  destruct (c54_literal (lit "time") (x, o) D Z) as (t' & H' & L); [cbn; tauto|]. rewrite H in H'. injection H' as <-.
  destruct L as (w & W & E). cbn [fst snd] in *.
  change (str_eqb (lit "time") (lit "date")) with false in E. change (str_eqb (lit "time") (lit "time")) with true in E. cbv iota in E. subst t.
  exists {| f_items := kind_items (KTime iso_clock n); f_marker := None |}. split; [apply (kind_format_ok (KTime iso_clock n) I)|].
  cbn [f_items]. rewrite <- app_assoc. apply time_back; auto. destruct Hn as [->|U0]; [apply W|]. rewrite U0 in W. apply fraction_zero in W. subst. cbn. lia.
Qed.
(** The literal of a dateTime, read in the format yyyy-MM-ddTHH:mm:ss.SSSSSS, is the date and time (timezone aside) *)
Theorem c54_datetime_read_back : forall today base v t, base <> lit "date" -> base <> lit "time" -> dt_ok (fst v) = true -> zone_ok (snd v) -> snd v = None \/ us (fst v) = 0 ->
  format_value (PvDate v) (Some (Some base)) = Ok (PvStr t) ->
  exists F, dt_format_and_regex (lit "yyyy-MM-ddTHH:mm:ss.SSSSSS") false = Ok F /\ dt_parse today (f_items F) t = Ok (fst v).
Proof.
  intros today base [x o] t N1 N2 D Z C H. cbn [fst snd] in *.
  destruct (c54_literal base (x, o) D Z) as (t' & H' & L); [cbn; tauto|]. rewrite H in H'. injection H' as <-.
  destruct L as (w & W & E). cbn [fst snd] in *. apply str_eqb_neq in N1, N2. rewrite N1, N2 in E. subst t.
  exists {| f_items := kind_items iso_both; f_marker := None |}. split; [vm_compute; reflexivity|].
  cbn [f_items]. rewrite <- !app_assoc. apply datetime_back; auto.
Qed.
(** Different values have different literals *)
Theorem c54_distinct : forall base v v' t, base <> lit "date" -> base <> lit "time" -> dt_ok (fst v) = true -> zone_ok (snd v) -> snd v = None \/ us (fst v) = 0 ->
  dt_ok (fst v') = true -> zone_ok (snd v') -> snd v' = None \/ us (fst v') = 0 ->
  format_value (PvDate v) (Some (Some base)) = Ok (PvStr t) -> format_value (PvDate v') (Some (Some base)) = Ok (PvStr t) -> v = v'.
Proof.
  intros base [x o] [x' o'] t N1 N2 D Z C D' Z' C' H H'.
  destruct (c54_datetime_read_back (0, 0, 0) base _ t N1 N2 D Z C H) as (F & E & P).
  destruct (c54_datetime_read_back (0, 0, 0) base _ t N1 N2 D' Z' C' H') as (F' & E' & P').
  rewrite E in E'. apply Ok_inj in E'; subst F'. rewrite P in P'. apply Ok_inj in P'. cbn [fst snd] in *. subst x'.
  f_equal.
  destruct (c54_literal base (x, o) D Z) as (t1 & H1 & L1); [cbn; tauto|]. rewrite H in H1. injection H1 as <-.
  destruct (c54_literal base (x, o') D Z') as (t1 & H1 & L1'); [cbn; tauto|]. rewrite H' in H1. injection H1 as <-.
  destruct L1 as (w & W & E1). destruct L1' as (w' & W' & E2). cbn [fst snd] in *. rewrite (fraction_unique _ _ _ W' W) in E2.
  rewrite E1 in E2. apply app_inv_head in E2. clear - E2 Z Z'.
  assert (G : forall z, zone_ok (Some z) -> zone_text (Some z) <> []) by (intros z _; unfold zone_text; destruct (Z.eqb z 0); [discriminate|destruct (Z.ltb z 0); discriminate]).
  destruct o as [z|], o' as [z'|]; [|exfalso; apply (G z Z); exact E2|exfalso; apply (G z' Z'); symmetry; exact E2|reflexivity].
  destruct (tz_found [] z Z) as (u & U1 & U2). destruct (tz_found [] z' Z') as (u' & U1' & U2'). rewrite E2 in U1. rewrite U1 in U1'. injection U1' as <-. congruence.
Qed.

(** Whatever is not a list becomes a JSON scalar: a string, an integer, a finite number, a boolean or null *)
Theorem c54_scalar : forall v col r, (forall l, v <> PvList l) -> format_value v col = Ok r -> json_scalar r.
Proof.
  intros v col r NL H.
  assert (G : forall f, json_scalar (@format_float Fl Du Ur f)) by (intros []; exact I).
  destruct v; cbn in H; try (injection H as <-; try exact I; try apply G; fail).
  - destruct col as [[b|]|]; try discriminate; injection H as <-; exact I.
  - destruct col as [[b|]|]; try discriminate. cbn in H. destruct (formatted b (inl t)); cbn in H; [|discriminate]. injection H as <-. exact I.
  - destruct x as [| |[] ? ?]; try discriminate; injection H as <-; apply G.
  - destruct col as [[b'|]|]; try discriminate. cbn in H. destruct (formatted b' (inr b)); cbn in H; [|discriminate]. injection H as <-. exact I.
  - exfalso. eapply NL. reflexivity.
Qed.
(** With the column's own datatype this always succeeds, but for signaling NaNs, if the datatype can write durations and bytes *)
Theorem c54_total : forall v base, (forall n p, v <> PvDec (NaN true n p)) -> (needs_type v -> forall x, exists t, formatted base x = Ok t) ->
  exists r, format_value v (Some (Some base)) = Ok r.
Proof.
  intros v base NS Fm. destruct v; cbn; eauto.
  - destruct (Fm I (inl t)) as (r & ->). cbn. eauto.
  - destruct x as [| |[] ? ?]; eauto. destruct (NS _ _ eq_refl).
  - destruct (Fm I (inr b)) as (r & ->). cbn. eauto.
Qed.
(** Strings, integers, booleans and finite floats are kept; the other floats are NaN, INF and -INF; decimals become floats *)
Theorem c54_kept : forall col t z b f,
  format_value (PvStr t) col = Ok (PvStr t) /\ format_value (PvInt z) col = Ok (PvInt z) /\ format_value (PvBool b) col = Ok (PvBool b) /\
  format_value (PvFloat (FFin f)) col = Ok (PvFloat (FFin f)) /\ format_value (PvFloat FNaN) col = Ok (PvStr (lit "NaN")) /\
  format_value (PvFloat (FInf false)) col = Ok (PvStr (lit "INF")) /\ format_value (PvFloat (FInf true)) col = Ok (PvStr (lit "-INF")) /\
  (forall x, (forall n p, x <> NaN true n p) -> format_value (PvDec x) col = format_value (PvFloat (to_float x)) col).
Proof.
  intros. repeat split. intros x H. destruct x as [| |[] n p]; try reflexivity. destruct (H _ _ eq_refl).
Qed.

(** *** What does not hold *)
(** With a fraction and a timezone the text is no date: zeros are cut off the timezone *)
Theorem c54_fraction_and_zone_refuted :
  let x := {| y := 2020; mo := 1; d := 2; h := 12; mi := 0; s := 0; us := 500000 |} in
  format_value (PvDate (x, Some 0%Z)) (Some (Some (lit "dateTime"))) = Ok (PvStr (lit "2020-01-02T12:00:00.500000+00:")) /\
  format_value (PvDate (x, Some 330%Z)) (Some (Some (lit "time"))) = Ok (PvStr (lit "12:00:00.500000+05:3")).
Proof. split; vm_compute; reflexivity. Qed.
(** In a column that inherits its datatype from the schema or the table, dates, durations and bytes raise AttributeError *)
Theorem c54_inherited_datatype_refuted : forall v, (exists x, v = PvDate x) \/ needs_type v -> format_value v (Some None) = Err AttributeError.
Proof. intros v [(x & ->)|N]; [reflexivity|]. destruct v; try destruct N; reflexivity. Qed.
(** The items of a list are not formatted *)
Theorem c54_list_refuted : forall l col, format_value (PvList l) col = Ok (PvList l).
Proof. reflexivity. Qed.
End C54.
Print Assumptions c54_literal. Print Assumptions c54_literal_unique. Print Assumptions c54_no_column. Print Assumptions c54_date_read_back.
Print Assumptions c54_time_read_back. Print Assumptions c54_datetime_read_back. Print Assumptions c54_distinct. Print Assumptions c54_scalar. Print Assumptions c54_total.
Print Assumptions c54_kept. Print Assumptions c54_fraction_and_zone_refuted. Print Assumptions c54_inherited_datatype_refuted. Print Assumptions c54_list_refuted.

Example c54_nonvacuous :
  let f v b := @format_value nat nat nat (fun _ => FNaN) (fun _ _ => Ok []) (fun _ => []) (PvDate v) (Some (Some b)) in
  let x := {| y := 2020; mo := 1; d := 2; h := 3; mi := 4; s := 5; us := 0 |} in
  let x' := {| y := 2020; mo := 1; d := 2; h := 3; mi := 4; s := 5; us := 67000 |} in
  dt_ok x = true /\ dt_ok x' = true /\ zone_ok (Some (-330)%Z)
  /\ f (x, Some (-330)%Z) (lit "dateTime") = Ok (PvStr (lit "2020-01-02T03:04:05-05:30"))
  /\ f (x, Some 0%Z) (lit "time") = Ok (PvStr (lit "03:04:05Z")) /\ f (x', Some 60%Z) (lit "date") = Ok (PvStr (lit "2020-01-02+01:00"))
  /\ f (x', None) (lit "dateTime") = Ok (PvStr (lit "2020-01-02T03:04:05.067"))
  /\ date_to_python (fun _ => None) (0, 0, 0) (kind_items (KDate iso_date)) (lit " 2020-01-02+01:00 ") = Ok (midnight x, Some 60%Z).
Proof. cbv zeta. repeat split; try (vm_compute; reflexivity). Qed.
