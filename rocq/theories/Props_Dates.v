(** Property theorems C21, C23.  Vocabulary: DateSpec.v, DatatypeSpec.v. *)
From Verif Require Import PyStr Dec Dates DateSpec DateProofs DateProofs2 Datatype DatatypeSpec DatatypeProofs.

(** * C21 *)
(** exactly the [accepted] formats are accepted, everything else raises ValueError *)
Theorem c21_formats : forall no_date fmt,
  match dt_format_and_regex fmt no_date with
  | Ok F => accepted no_date fmt
  | Err e => e = ValueError /\ ~ accepted no_date fmt
  end.
Proof. exact format_accepted. Qed.
Print Assumptions c21_formats.
(** in particular every documented date, time and date-time format is accepted; and what is written in it
    field by field is read as the same fields *)
Theorem c21_parse : forall today k x w, kind_ok k -> all_digits w = true -> (length w <= kind_frac k)%nat -> dt_ok (said today k x w) = true ->
  exists its, dt_format_and_regex (kind_format k) (kind_no_date k) = Ok {| f_items := its; f_marker := None |}
    /\ dt_parse today its (kind_text k x w) = Ok (said today k x w)
    (* date and dateTime try dateutil.parser.isoparse first *)
    /\ forall isoparse, isoparse (kind_text k x w) = None \/ isoparse (kind_text k x w) = Some (said today k x w) ->
       dt_to_python isoparse today its (kind_text k x w) = Ok (said today k x w).
Proof.
  intros today k x w Hk A L D. exists (kind_items k). split; [apply kind_format_ok, Hk|]. split.
  - apply (date_parse today k x w []); auto; [right; split; [reflexivity|exact I]|]. rewrite app_nil_r. apply kind_text_strip; auto.
  - intros iso H. apply date_to_python; auto.
Qed.
Print Assumptions c21_parse.
(** more fraction digits than the format has: ValueError *)
Theorem c21_extra_digits : forall today k x w w0, kind_ok k -> all_digits w = true -> (1 <= kind_frac k < length w)%nat ->
  dt_ok (said today k x w0) = true ->
  exists its, dt_format_and_regex (kind_format k) (kind_no_date k) = Ok {| f_items := its; f_marker := None |}
    /\ dt_parse today its (kind_text k x w) = Err ValueError.
Proof.
  intros today k x w w0 Hk A L D. exists (kind_items k). split; [apply kind_format_ok, Hk|].
  apply (date_extra today k x w w0 Hk A L D _ []); [reflexivity|]. rewrite app_nil_r. apply kind_text_strip; auto.
Qed.
Print Assumptions c21_extra_digits.
(** the match is not anchored at the end: text after the date is ignored *)
Theorem c21_trailing_text_refuted : forall today k x w junk, kind_ok k -> all_digits w = true -> (length w <= kind_frac k)%nat ->
  dt_ok (said today k x w) = true -> (kind_frac k = O \/ ends_fraction junk) ->
  strip (kind_text k x w ++ junk) = kind_text k x w ++ junk ->
  exists its, dt_format_and_regex (kind_format k) (kind_no_date k) = Ok {| f_items := its; f_marker := None |}
    /\ dt_parse today its (kind_text k x w ++ junk) = Ok (said today k x w).
Proof.
  intros today k x w junk Hk A L D J S. exists (kind_items k). split; [apply kind_format_ok, Hk|].
  apply (date_parse today k x w junk); auto.
Qed.
Print Assumptions c21_trailing_text_refuted.
(** the format may even be empty *)
Theorem c21_empty_format_refuted : dt_format_and_regex [] false = Ok {| f_items := []; f_marker := None |}
  /\ exists F, dt_format_and_regex (lit "T.S") false = Ok F.
Proof. split; [reflexivity|eexists; reflexivity]. Qed.
Print Assumptions c21_empty_format_refuted.
Example c21_nonvacuous :
  let k := KBoth {| dp_order := DMY; dp_sep := lit "."; dp_padded := false |} 32 {| tp_colon := true; tp_secs := true |} 3 in
  let x := {| y := 2024; mo := 2; d := 29; h := 7; mi := 5; s := 9; us := 0 |} in
  kind_ok k /\ kind_format k = lit "d.M.yyyy HH:mm:ss.SSS" /\ kind_text k x (lit "25") = lit "29.2.2024 07:05:09.25"
  /\ dt_ok (said (0, 0, 0) k x (lit "25")) = true /\ us (said (0, 0, 0) k x (lit "25")) = 250000
  /\ (exists F, dt_format_and_regex (lit "yyyy-MM-ddTHH:mmXXX") false = Ok F /\ f_marker F = Some (lit "XXX"))
  /\ dt_format_and_regex (lit "yyyy-MM-dd HH:mm:ss xX") false = Err ValueError
  /\ dt_format_and_regex (lit "yyyy/MM/dd") false = Err ValueError.
Proof.
  cbv zeta. split; [split; [vm_compute; tauto|left; reflexivity]|]. repeat split; try (vm_compute; reflexivity). eexists. split; vm_compute; reflexivity.
Qed.
Example c21_trailing_witness : exists F, dt_format_and_regex (lit "d.M.yyyy") false = Ok F
  /\ dt_parse (0, 0, 0) (f_items F) (lit "1.2.20245 is garbage") = Ok {| y := 2024; mo := 2; d := 1; h := 0; mi := 0; s := 0; us := 0 |}.
Proof. eexists. split; vm_compute; reflexivity. Qed.

(** * C23 *)
(** for every kind of value: [validate] returns the value iff the constraints are satisfied, and raises ValueError
    otherwise (bounds apply to the types with minmax, see [c23_types]) *)
Theorem c23_validate : forall V (ops : vops V) c F v, (minmax c = true -> comparable ops F v) ->
  (validate ops c F v = Ok v /\ satisfies ops F v (minmax c))
  \/ (validate ops c F v = Err ValueError /\ ~ satisfies ops F v (minmax c)).
Proof. exact @validate_spec. Qed.
Print Assumptions c23_validate.
(** which types have bounds, lengths *)
Theorem c23_types : forall name c, In (name, c) DATATYPES ->
  (minmax c = true <-> In name bounded_types) /\ (has_length c = true <-> In name length_types) /\
  (has_order c = true <-> In name bounded_types \/ In name duration_types).
Proof. exact classes_documented. Qed.
Print Assumptions c23_types.
(** the constructor only accepts consistent constraints, and stores the parsed bounds *)
Theorem c23_constructor : forall V (ops : vops V) R (parse : R -> res V) c derived idb raw F keep,
  post_init ops parse c derived idb raw = Ok (F, keep) ->
  consistent ops c F /\ fc_length F = fc_length raw /\ fc_minLength F = fc_minLength raw /\ fc_maxLength F = fc_maxLength raw
  /\ (forall f, In f [(@fc_minimum R, @fc_minimum V); (fc_maximum, fc_maximum); (fc_minInclusive, fc_minInclusive);
                      (fc_maxInclusive, fc_maxInclusive); (fc_minExclusive, fc_minExclusive); (fc_maxExclusive, fc_maxExclusive)] ->
      match fst f raw with Some r => exists v, parse r = Ok v /\ snd f F = Some v | None => snd f F = None end)
  /\ idb = false.
Proof. exact @post_init_spec. Qed.
Print Assumptions c23_constructor.
(** ... and all of them *)
Theorem c23_constructor_complete : forall V (ops : vops V) c pat (F : facets V), consistent ops c F -> total_on ops F ->
  exists keep, post_init ops (fun v => Ok v) c (Ok pat) false F = Ok (F, keep).
Proof. exact @post_init_complete. Qed.
Print Assumptions c23_constructor_complete.
(** accepted length constraints can be met by some length *)
Theorem c23_lengths_meetable : forall V (ops : vops V) c (F : facets V), consistent ops c F ->
  (forall z, In (Some z) [fc_length F; fc_minLength F; fc_maxLength F] -> (0 <= z)%Z) ->
  exists n : nat, (forall k, fc_length F = Some k -> Z.of_nat n = k) /\ (forall k, fc_minLength F = Some k -> (k <= Z.of_nat n)%Z)
     /\ (forall k, fc_maxLength F = Some k -> (Z.of_nat n <= k)%Z).
Proof. exact @lengths_meetable. Qed.
Print Assumptions c23_lengths_meetable.

Definition ints (mn mx mni mxi mne mxe : option Z) : facets value :=
  let v := option_map VInt in
  {| fc_length := None; fc_minLength := None; fc_maxLength := None; fc_minimum := v mn; fc_maximum := v mx;
     fc_minInclusive := v mni; fc_maxInclusive := v mxi; fc_minExclusive := v mne; fc_maxExclusive := v mxe |}.
Definition make (c : dclass) (F : facets value) := post_init value_ops (fun v => Ok v) c (Ok None) false F.
(** minimum > maximum is accepted, and then no integer is valid *)
Theorem c23_minimum_maximum_refuted : let F := ints (Some 5%Z) (Some 3%Z) None None None None in
  make CDecimal F = Ok (F, true) /\ forall z, validate value_ops CDecimal F (VInt z) = Err ValueError.
Proof.
  cbv zeta. split; [reflexivity|]. intros z.
  assert (C : comparable value_ops (ints (Some 5%Z) (Some 3%Z) None None None None) (VInt z)).
  { intros b [H|[H|[H|[H|[H|[H|[]]]]]]]; try discriminate; injection H as <-; eexists; reflexivity. }
  destruct (c23_validate _ value_ops CDecimal (ints (Some 5%Z) (Some 3%Z) None None None None) (VInt z) (fun _ => C)) as [[_ [_ H]]|[H _]]; [|exact H].
  exfalso. destruct (H eq_refl) as (H1 & H2 & _). specialize (H1 (VInt 5) (or_introl eq_refl)). specialize (H2 (VInt 3) (or_introl eq_refl)).
  unfold related in *. cbn in *. rewrite Z.compare_lt_iff in H1. rewrite Z.compare_gt_iff in H2. lia.
Qed.
Print Assumptions c23_minimum_maximum_refuted.
(** bounds equal to 0 count as absent in the checks: [0, 0) is accepted, so are two lower bounds *)
Theorem c23_zero_bounds_refuted :
  (let F := ints None None (Some 0%Z) None None (Some 0%Z) in make CDecimal F = Ok (F, true))
  /\ (let F := ints None None (Some 0%Z) None (Some 7%Z) None in make CDecimal F = Ok (F, true))
  /\ (let F := ints None None (Some 1%Z) None None (Some 1%Z) in make CDecimal F = Err ValueError)
  /\ (let F := ints None None (Some 1%Z) None (Some 7%Z) None in make CDecimal F = Err ValueError).
Proof. repeat split; reflexivity. Qed.
Print Assumptions c23_zero_bounds_refuted.
(** bounds of durations are accepted but never enforced *)
Theorem c23_duration_refuted : forall V (ops : vops V) F v, fc_length F = None -> fc_minLength F = None -> fc_maxLength F = None ->
  validate ops CDuration F v = Ok v.
Proof.
  intros V ops F v H1 H2 H3. unfold validate, check_len. rewrite H1, H2, H3. cbn [minmax]. destruct (if v_truthy ops v then _ else _); reflexivity.
Qed.
Print Assumptions c23_duration_refuted.
(** comparing the decimal NaN with a bound raises decimal.InvalidOperation, not ValueError *)
Theorem c23_nan_refuted : validate value_ops CDecimal
  {| fc_length := None; fc_minLength := None; fc_maxLength := None; fc_minimum := Some (VDec (Fin false 1 0)); fc_maximum := None;
     fc_minInclusive := None; fc_maxInclusive := None; fc_minExclusive := None; fc_maxExclusive := None |}
  (VDec (NaN false false [])) = Err DecimalInvalid.
Proof. reflexivity. Qed.
Print Assumptions c23_nan_refuted.
Example c23_nonvacuous : let F := ints (Some (-3)%Z) None None (Some 10%Z) (Some 2%Z) None in
  make CDecimal F = Ok (F, true) /\ comparable value_ops F (VInt 2) /\ validate value_ops CDecimal F (VInt 2) = Err ValueError
  /\ validate value_ops CDecimal F (VInt 3) = Ok (VInt 3) /\ validate value_ops CDecimal F (VInt 10) = Ok (VInt 10)
  /\ validate value_ops CDecimal F (VInt 11) = Err ValueError.
Proof. cbv zeta. repeat split; try reflexivity. intros b [H|[H|[H|[H|[H|[H|[]]]]]]]; try discriminate; injection H as <-; eexists; reflexivity. Qed.
Example c23_nonvacuous_len : let F := {| fc_length := None; fc_minLength := Some 2%Z; fc_maxLength := Some 3%Z; fc_minimum := None; fc_maximum := None;
     fc_minInclusive := None; fc_maxInclusive := None; fc_minExclusive := None; fc_maxExclusive := None |} in
  make CString F = Ok (F, true) /\ make CBool F = Err ValueError /\ validate value_ops CString F (VStr (lit "ab")) = Ok (VStr (lit "ab"))
  /\ validate value_ops CString F (VStr []) = Err ValueError /\ validate value_ops CString F (VStr (lit "abcd")) = Err ValueError.
Proof. repeat split; reflexivity. Qed.
