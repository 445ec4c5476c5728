(** Property theorems about metadata objects (C48). *)
From Verif Require Import PyStr Dsv Json Meta MetaSpec MetaProofs MetaProofs2.

(** *** C48: partitioning of properties *)
(** A JSON object is accepted exactly under the stated rules, and then yields exactly the expected three
    dictionaries and the expected reports. *)
Theorem c48_partition tag_ok fields type_name strict kvs :
  wf_json (JObj kvs) ->
  ((exists o ws, partition_properties tag_ok fields type_name strict (JObj kvs) = Ok (o, ws)) <->
   accepted fields type_name strict kvs) /\
  (forall o ws, partition_properties tag_ok fields type_name strict (JObj kvs) = Ok (o, ws) ->
     o = Some {| p_common := expected_common tag_ok fields strict kvs; p_at := expected_at fields strict kvs;
                 p_attrs := expected_attrs fields strict kvs |} /\
     reported ws = expected_dropped fields strict kvs).
Proof.
  intros W. split; [split|].
  - intros (o & ws & E). eapply partition_sound; eauto.
  - intros A. destruct (partition_complete tag_ok fields type_name strict kvs W A) as [[o ws] E]. eauto.
  - intros o ws E. destruct (partition_sound tag_ok fields type_name strict kvs o ws W E) as (_ & H1 & H2). auto.
Qed.
Print Assumptions c48_partition.

(** Each key ends up in exactly one place, and the places hold nothing else. *)
Theorem c48_every_key_once tag_ok fields type_name strict kvs p ws :
  wf_json (JObj kvs) -> partition_properties tag_ok fields type_name strict (JObj kvs) = Ok (Some p, ws) ->
  (forall k v, In (k, v) kvs ->
     let at_ := exists k' v', k = lit "@" ++ k' /\ In (k', v') (p_at p) in
     let common := exists v', In (k, v') (p_common p) in
     let attr := In (k, v) (p_attrs p) in
     let dropped := In k (reported ws) in
     (at_ /\ ~ common /\ ~ attr /\ ~ dropped) \/ (~ at_ /\ common /\ ~ attr /\ ~ dropped) \/
     (~ at_ /\ ~ common /\ attr /\ ~ dropped) \/ (~ at_ /\ ~ common /\ ~ attr /\ dropped)) /\
  (length (p_at p) + length (p_common p) + length (p_attrs p) + length (reported ws) = length kvs)%nat.
Proof.
  intros W E. destruct (partition_sound tag_ok fields type_name strict kvs _ _ W E) as (A & H1 & H2). injection H1 as ->.
  apply wf_obj in W. destruct W as [N W]. rewrite H2. cbn [p_at p_common p_attrs]. split.
  2:{ unfold expected_at, expected_common, expected_attrs, expected_dropped. rewrite !map_length. apply fate_lengths. }
  intros k v Hin. cbn zeta.
  assert (Uat : (exists k' v', k = lit "@" ++ k' /\ In (k', v') (expected_at fields strict kvs)) <-> fate_of fields strict k = FAt).
  { split.
    - intros (k' & v' & -> & _). apply (at_fate fields strict). reflexivity.
    - intros F. pose proof F as S. apply (at_fate fields strict), startswith_iff in S. destruct S as [k' S].
      eexists k', _. split; [exact S|]. unfold expected_at. apply in_map_iff. exists (k, v).
      split; [|apply with_fate_In; auto]. cbn [fst snd]. rewrite S at 1. reflexivity. }
  assert (Uc : (exists v', In (k, v') (expected_common tag_ok fields strict kvs)) <-> fate_of fields strict k = FCommon).
  { unfold expected_common. split.
    - intros (v' & H). apply in_map_iff in H. destruct H as ([k0 v0] & E0 & H). apply with_fate_In in H. cbn in E0. injection E0 as <- _. tauto.
    - intros F. eexists. apply in_map_iff. exists (k, v). split; [reflexivity|]. apply with_fate_In; auto. }
  assert (Ua : In (k, v) (expected_attrs fields strict kvs) <-> fate_of fields strict k = FAttr).
  { unfold expected_attrs. rewrite with_fate_In. tauto. }
  assert (Ud : In k (expected_dropped fields strict kvs) <-> fate_of fields strict k = FDropped).
  { unfold expected_dropped. rewrite in_map_iff. split.
    - intros ([k0 v0] & E0 & H). apply with_fate_In in H. cbn in E0. subst k0. tauto.
    - intros F. exists (k, v). split; [reflexivity|]. apply with_fate_In; auto. }
  rewrite Uat, Uc, Ua, Ud. destruct (fate_of fields strict k); intuition discriminate.
Qed.
Print Assumptions c48_every_key_once.

(** With clean input, all values are passed on unchanged. *)
Theorem c48_unchanged tag_ok fields type_name strict kvs p ws :
  wf_json (JObj kvs) -> partition_properties tag_ok fields type_name strict (JObj kvs) = Ok (Some p, ws) ->
  (forall v, In (lit "@id", v) kvs -> exists s, v = JStr s) ->
  (forall k v, In (k, v) kvs -> fate_of fields strict k = FCommon -> no_defect tag_ok v) ->
  p_at p = map (fun kv => (tl (fst kv), snd kv)) (with_fate fields strict FAt kvs) /\
  p_common p = with_fate fields strict FCommon kvs /\
  p_attrs p = with_fate fields strict FAttr kvs.
Proof.
  intros W E Hid Hc. destruct (partition_sound tag_ok fields type_name strict kvs _ _ W E) as (A & H1 & H2). injection H1 as ->.
  cbn [p_at p_common p_attrs]. split; [|split; [|reflexivity]].
  - apply map_ext_in. intros [k v] Hin. apply with_fate_In in Hin. destruct Hin as [Hin _]. cbn [fst snd].
    destruct (str_eq_dec k (lit "@id")) as [->|]; [|reflexivity]. destruct (Hid _ Hin) as [s ->]. reflexivity.
  - unfold expected_common. rewrite <- map_id. apply map_ext_in. intros [k v] Hin. apply with_fate_In in Hin.
    cbn [fst snd]. rewrite clean_same; [reflexivity|]. apply (Hc k v); tauto.
Qed.
Print Assumptions c48_unchanged.

(** Non-strict mode drops nothing. *)
Theorem c48_nonstrict tag_ok fields type_name kvs o ws :
  wf_json (JObj kvs) -> partition_properties tag_ok fields type_name false (JObj kvs) = Ok (o, ws) -> reported ws = [].
Proof.
  intros W E. destruct (partition_sound tag_ok fields type_name false kvs _ _ W E) as (A & H1 & H2). rewrite H2.
  unfold expected_dropped. destruct (with_fate fields false FDropped kvs) as [|[k v] l] eqn:F; [reflexivity|].
  assert (Hin : In (k, v) (with_fate fields false FDropped kvs)) by (rewrite F; left; auto).
  apply with_fate_In in Hin. destruct Hin as [_ D]. unfold fate_of in D.
  destruct (match k with [] => false | _ => _ end); [discriminate|]. destruct (in_dec N.eq_dec 58 k); discriminate.
Qed.
Print Assumptions c48_nonstrict.

(** Values that are no objects. *)
Theorem c48_not_an_object tag_ok fields type_name strict d : (forall kvs, d <> JObj kvs) ->
  partition_properties tag_ok fields type_name strict d =
  if truthy d then Ok (None, []) else Ok (Some {| p_common := []; p_at := []; p_attrs := [] |}, []).
Proof. intros H. unfold partition_properties. destruct (truthy d); [|reflexivity]. destruct d as [| | | | | |kvs]; try reflexivity. elim (H kvs eq_refl). Qed.
Print Assumptions c48_not_an_object.

(** The value of a common property: accepted exactly under the rules of the recommendation as the code reads
    them; the result is the input, corrected; silence means that there was nothing to correct, and then the
    value is returned as it is; checking twice changes nothing more. *)
Theorem c48_common_property tag_ok v : wf_json v ->
  ((exists w ws, valid_common_property tag_ok v = Ok (w, ws)) <-> common_ok v) /\
  (forall w ws, valid_common_property tag_ok v = Ok (w, ws) ->
     w = clean tag_ok v /\ (ws = [] <-> no_defect tag_ok v) /\ (ws = [] -> w = v)) /\
  (forall e, valid_common_property tag_ok v = Err e -> e = ValueError) /\
  clean tag_ok (clean tag_ok v) = clean tag_ok v.
Proof.
  intros W. split; [split|split; [|split]].
  - intros (w & ws & E). eapply vcp_sound; eauto.
  - intros H. destruct (vcp_complete tag_ok v W H) as [ws E]. eauto.
  - intros w ws E. destruct (vcp_sound tag_ok v W _ _ E) as [H1 H2]. destruct (vcp_complete tag_ok v W H1) as [ws' E'].
    rewrite E in E'. injection E' as -> ->. split; [reflexivity|]. split; [exact H2|]. intros Hn. apply clean_same, H2, Hn.
  - apply vcp_err.
  - apply clean_idem.
Qed.
Print Assumptions c48_common_property.

(** Failures: ValueError, or - a key 'common_props' or 'at_props' - TypeError. *)
Theorem c48_errors tag_ok fields type_name strict kvs e :
  wf_json (JObj kvs) -> partition_properties tag_ok fields type_name strict (JObj kvs) = Err e ->
  e = ValueError \/ e = TypeError /\ (In (lit "common_props") (map fst kvs) \/ In (lit "at_props") (map fst kvs)).
Proof.
  intros W. apply wf_obj in W. destruct W as [N W]. rewrite partition_obj.
  destruct (partition_loop _ _ _ _ _ kvs) as [[p ws]|e'] eqn:E; cbn [bind fst snd].
  - destruct (loop_sound tag_ok fields type_name strict kvs (fun k v H _ => W k v H) _ _ E) as (A1 & A2 & A3). cbn [fst snd] in A2.
    rewrite (fold_add tag_ok fields strict kvs N) in A2 by (cbn; tauto). cbn [p_common p_at p_attrs app] in A2. subst p. cbn [p_attrs].
    assert (S : forall k, In k (map fst (expected_attrs fields strict kvs)) -> In k (map fst kvs)).
    { intros k. rewrite !in_map_iff. intros ([k0 v0] & E0 & H). exists (k0, v0). unfold expected_attrs in H.
      apply with_fate_In in H. tauto. }
    destruct (str_mem (lit "common_props") _) eqn:E1; cbn [orb].
    { intros H; injection H as <-. right. split; [reflexivity|]. left. apply S, str_mem_In, E1. }
    destruct (str_mem (lit "at_props") _) eqn:E2; [|discriminate].
    intros H; injection H as <-. right. split; [reflexivity|]. right. apply S, str_mem_In, E2.
  - intros H; injection H as <-. left. eapply loop_err; eauto.
Qed.
Print Assumptions c48_errors.

(** a case with all four fates, two corrections and a report *)
Definition ex_fields : list pystr := [lit "common_props"; lit "at_props"; lit "name"; lit "titles"].
Definition ex_tag (s : pystr) : bool := str_eqb s (lit "en").
Definition ex_obj : list (pystr * json) :=
  [(lit "@type", JStr (lit "Column")); (lit "name", JStr (lit "a")); (lit "@id", JInt 5);
   (lit "dc:title", JObj [(lit "@value", JStr (lit "x")); (lit "@language", JStr (lit "?"))]);
   (lit "nam", JNull); (lit "rdfs:seeAlso", JList [JStr (lit "y"); JObj [(lit "@id", JStr (lit "http://z"))]])].
Example c48_nonvacuous :
  wf_json (JObj ex_obj) /\ accepted ex_fields (lit "Column") true ex_obj /\
  exists ws, partition_properties ex_tag ex_fields (lit "Column") true (JObj ex_obj) =
    Ok (Some {| p_common := [(lit "dc:title", JObj [(lit "@value", JStr (lit "x"))]);
                             (lit "rdfs:seeAlso", JList [JStr (lit "y"); JObj [(lit "@id", JStr (lit "http://z"))]])];
                p_at := [(lit "type", JStr (lit "Column")); (lit "id", JNull)];
                p_attrs := [(lit "name", JStr (lit "a"))] |}, ws) /\
    ws = [WLink; WLanguage; WProperty (lit "nam")].
Proof.
  assert (W : wf_json (JObj ex_obj)).
  { cbn; repeat split; repeat (constructor; [cbn; intuition discriminate|]); try constructor. }
  split; [exact W|]. assert (E : exists o ws, partition_properties ex_tag ex_fields (lit "Column") true (JObj ex_obj) = Ok (o, ws)).
  { eexists _, _. vm_compute. reflexivity. }
  split; [|eexists; split; vm_compute; reflexivity].
  apply (c48_partition ex_tag ex_fields (lit "Column") true ex_obj W), E.
Qed.

(** Finding: an attribute key that is also a field of the base class is not partitioned but raises TypeError. *)
Example c48_reserved_refuted :
  partition_properties ex_tag ex_fields (lit "Column") true (JObj [(lit "common_props", JObj [])]) = Err TypeError.
Proof. reflexivity. Qed.
(** Finding: "The value of the @value property MUST be a string, number, or boolean", but a float is refused
    as soon as there is an @type or @language; alone it is accepted. *)
Example c48_float_value_refuted r :
  valid_common_property ex_tag (JObj [(lit "@value", JFloat r); (lit "@type", JStr (lit "xsd:double"))]) = Err ValueError /\
  valid_common_property ex_tag (JObj [(lit "@value", JFloat r)]) = Ok (JObj [(lit "@value", JFloat r)], []).
Proof. split; reflexivity. Qed.
