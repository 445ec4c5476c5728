(** Warnings of dialects, tables and groups. *)
From Verif Require Import PyStr Dsv Json Dec Dialects NatLang Datatype Meta MetaSpec MetaProofs MetaProofs2 DsvProofs4
  Column Schema Descr DescrProofs DescrProofs2 DescrProofs3 DescrProofs4 DescrProofs5 Load LoadSpec LoadProofs LoadProofs2 LoadProofs3 LoadProofs4
  Warn WarnSpec WarnProofs WarnProofs2 WarnProofs3 WarnProofs4.
Local Open Scope nat_scope.

Section Tables.
Context {B : Type} (W : world B).
Hypothesis Utf8 : w_codec W (lit "utf-8") = CKnown.

(** ** Dialects *)
Lemma encoding_nil v x : convert_encoding (w_codec W) v = Ok x ->
  (encoding_warns W v = [] <-> exists s, v = JStr s /\ w_codec W (if str_eqb s (lit "UTF-8-BOM") then lit "utf-8-sig" else s) = CKnown).
Proof.
  unfold convert_encoding, encoding_warns. intros H. rewrite app_nil_iff, str_nil. destruct v as [|b|z|m|s|l|kvs].
  1-4,7: split; [intros [[[X _]|X] _]; [discriminate X|]; inversion X as [j (s & E)|]; discriminate|intros (s & E & _); discriminate E].
  - cbn [converter isinst andb no_cond] in *. unfold encoding_map in *. destruct (w_codec W (if str_eqb s (lit "UTF-8-BOM") then lit "utf-8-sig" else s)) eqn:C.
    + split; [|intros _; split; [right; apply ne_one; exists s; reflexivity|reflexivity]]. intros _. exists s. auto.
    + split; [intros [_ X]; discriminate X|]. intros (s' & E & X). injection E as <-. congruence.
    + discriminate H.
  - cbn in H. discriminate H.
Qed.
Lemma nested_iff (P : json -> Prop) v : (false = true /\ v = JNull) \/ nested P v <-> nested P v.
Proof. split; [intros [[X _]|X]; [discriminate X|exact X]|auto]. Qed.
Lemma lines_nil v : conv_warns TList false no_cond v = [] <-> exists l, v = JList l.
Proof. destruct v; cbn; (split; [|intros (l0 & E)]); try discriminate; eauto. Qed.
Theorem dialect_nil j a : wf_json j -> new_dialect W j = Ok a -> (dialect_warns W j = [] <-> dialect_in_order W j).
Proof.
  intros Wf H. unfold dialect_in_order, dialect_warns. destruct j as [|b|z|m|s|l|d].
  1-6: split; [discriminate|intros (d & E & _); discriminate E].
  unfold new_dialect in H. destruct (dialect_props W (JObj d)) as [kw|] eqn:Ek; [|discriminate H]. cbn [bind] in H.
  pose proof (dialect_kw W (JObj d) kw Wf Ek) as K. cbn [dialect_object] in K.
  unfold dialect_props in Ek. destruct (partition_properties (w_tag_ok W) (Description_names W) (lit "Dialect") false (JObj d)) as [r|] eqn:P; [|discriminate Ek]. clear Ek.
  rewrite app_nil_iff, (parts_warns_nil W _ _ _ d _ Wf P), flat_map_nil.
  pose proof (proj1 (wf_obj d) Wf) as [Nd _].
  assert (G : forall s, In s (meta_dialect_spec W) -> str_eqb (a_name s) (lit "header") = false -> dget str_eqb kw (a_name s) = member d (a_name s)).
  { intros s Hs Hn. rewrite K by (apply in_map; exact Hs). rewrite Hn. reflexivity. }
  assert (Keys : (forall k v, In (k, v) d -> item_quiet (w_tag_ok W) (Description_names W) false k v) <->
                 (forall v, In (lit "@id", v) d -> a_string v) /\ (forall k v, In (k, v) d -> In 58%N k -> (forall r, k <> lit "@" ++ r) -> no_defect (w_tag_ok W) v)).
  { unfold item_quiet. split.
    - intros X. split; [intros v I; exact (proj1 (proj2 (X _ v I)) eq_refl)|intros k v I; exact (proj2 (proj2 (X k v I)))].
    - intros [X Y] k v I. split; [right; right; discriminate|]. split; [intros ->; exact (X v I)|exact (Y k v I)]. }
  rewrite Keys. clear Keys.
  assert (Spec : (forall x, In x (meta_dialect_spec W) -> getdef (dget str_eqb (dialect_table W) (a_name x)) (fun _ => []) (getdef (dget str_eqb kw (a_name x)) (a_default x)) = []) <->
    (forall k v, In (k, v) d -> dialect_rule W k v) /\
    (forall v, member d (lit "header") = Some v -> (forall n, member d (lit "headerRowCount") = Some n -> truthy n = false) -> nested is_bool v)).
  { assert (A : forall n def (R : json -> Prop), (exists s, In s (meta_dialect_spec W) /\ a_name s = n /\ a_default s = def) -> str_eqb n (lit "header") = false ->
       getdef (dget str_eqb (dialect_table W) n) (fun _ => []) def = [] -> (forall v, In (n, v) d -> (getdef (dget str_eqb (dialect_table W) n) (fun _ => []) v = [] <-> R v)) ->
       (getdef (dget str_eqb (dialect_table W) n) (fun _ => []) (getdef (dget str_eqb kw n) def) = [] <-> forall v, In (n, v) d -> R v)).
    { intros n def R (s & Hs & <- & <-) Nh D E. rewrite (G s Hs Nh). apply attr_q; assumption. }
    assert (Enc : getdef (dget str_eqb (dialect_table W) (lit "encoding")) (fun _ => []) (getdef (dget str_eqb kw (lit "encoding")) (JStr (lit "utf-8"))) = [] <->
      forall v, In (lit "encoding", v) d -> exists s, v = JStr s /\ w_codec W (if str_eqb s (lit "UTF-8-BOM") then lit "utf-8-sig" else s) = CKnown).
    { apply A; [eexists; split; [left; reflexivity|split; reflexivity]|reflexivity| |].
      - cbn [dget getdef]. change (encoding_warns W (JStr (lit "utf-8")) = []). unfold encoding_warns. cbn [converter isinst andb no_cond]. change (encoding_map (lit "utf-8")) with (lit "utf-8"). rewrite Utf8. reflexivity.
      - intros v I. set (se := {| a_name := lit "encoding"; a_default := JStr (lit "utf-8"); a_conv := convert_encoding (w_codec W); a_valid := valid_type TStr |}).
        assert (Hs : In se (meta_dialect_spec W)) by (left; reflexivity).
        destruct (init_get W kw a se H Hs) as (x & _ & Iv & _). 
        assert (Iv' : convert_encoding (w_codec W) (getdef (dget str_eqb kw (lit "encoding")) (JStr (lit "utf-8"))) = Ok x) by exact Iv. clear Iv. rename Iv' into Iv.
        pose proof (G se Hs eq_refl) as Ge. change (a_name se) with (lit "encoding") in Ge. rewrite Ge in Iv. clear Ge. unfold member in Iv. rewrite (In_dget d _ v Nd I) in Iv. exact (encoding_nil v x Iv). }
    assert (Lin : getdef (dget str_eqb (dialect_table W) (lit "lineTerminators")) (fun _ => []) (getdef (dget str_eqb kw (lit "lineTerminators")) crlf_lf) = [] <-> forall v, In (lit "lineTerminators", v) d -> exists l, v = JList l).
    { apply A; [eexists; split; [right; left; reflexivity|split; reflexivity]|reflexivity|reflexivity|intros v _; apply lines_nil]. }
    assert (Bo : forall n b, In (mk n (JBool b) (converter TBool (JBool b) false no_cond) (valid_type TBool)) (meta_dialect_spec W) -> str_eqb n (lit "header") = false ->
      getdef (dget str_eqb (dialect_table W) n) (fun _ => []) = conv_warns TBool false no_cond ->
      (getdef (dget str_eqb (dialect_table W) n) (fun _ => []) (getdef (dget str_eqb kw n) (JBool b)) = [] <-> forall v, In (n, v) d -> nested is_bool v)).
    { intros n b Hs Nh E. apply A; [eexists; split; [exact Hs|split; reflexivity]|exact Nh|rewrite E; reflexivity|]. intros v _. rewrite E, bool_nil. apply nested_iff. }
    assert (Cn : forall n c, In (mk n (JInt c) (converter TInt (JInt c) false nonneg) valid_nonneg) (meta_dialect_spec W) -> str_eqb n (lit "header") = false -> (0 <= c)%Z ->
      getdef (dget str_eqb (dialect_table W) n) (fun _ => []) = conv_warns TInt false nonneg ->
      (getdef (dget str_eqb (dialect_table W) n) (fun _ => []) (getdef (dget str_eqb kw n) (JInt c)) = [] <-> forall v, In (n, v) d -> nested is_count v)).
    { intros n c Hs Nh Pc E. apply A; [eexists; split; [exact Hs|split; reflexivity]|exact Nh|rewrite E; apply count_nil; apply ne_one; exists c; auto|]. intros v _. rewrite E, count_nil. reflexivity. }
    assert (Op : forall n def, (exists s, In s (meta_dialect_spec W) /\ a_name s = n /\ a_default s = def) -> str_eqb n (lit "header") = false -> null_or (nested a_string) def ->
      getdef (dget str_eqb (dialect_table W) n) (fun _ => []) = conv_warns TStr true no_cond ->
      (getdef (dget str_eqb (dialect_table W) n) (fun _ => []) (getdef (dget str_eqb kw n) def) = [] <-> forall v, In (n, v) d -> null_or (nested a_string) v)).
    { intros n def Hs Nh Pd E. apply A; [exact Hs|exact Nh|rewrite E; apply str_nil; destruct Pd as [->|Pd]; auto|]. intros v _. rewrite E, str_nil. apply null_or_iff. }
    assert (De : getdef (dget str_eqb (dialect_table W) (lit "delimiter")) (fun _ => []) (getdef (dget str_eqb kw (lit "delimiter")) (JStr (lit ","))) = [] <-> forall v, In (lit "delimiter", v) d -> nested a_string v).
    { apply A; [eexists; split; [do 7 right; left; reflexivity|split; reflexivity]|reflexivity|reflexivity|]. intros v _.
      change (conv_warns TStr false no_cond v = [] <-> nested a_string v). rewrite str_nil. apply nested_iff. }
    assert (Tr : getdef (dget str_eqb (dialect_table W) (lit "trim")) (fun _ => []) (getdef (dget str_eqb kw (lit "trim")) (JStr (lit "false"))) = [] <-> forall v, In (lit "trim", v) d -> nested (fun j => a_string j \/ is_bool j) v).
    { apply A; [eexists; split; [do 11 right; left; reflexivity|split; reflexivity]|reflexivity|reflexivity|]. intros v _. apply trim_nil. }
    assert (He : conv_warns TBool false no_cond (getdef (dget str_eqb kw (lit "header")) (JBool true)) = [] <->
      forall v, member d (lit "header") = Some v -> (forall n, member d (lit "headerRowCount") = Some n -> truthy n = false) -> nested is_bool v).
    { rewrite K by (cbn; auto 20). rewrite str_eqb_refl. cbn [andb]. destruct (member d (lit "headerRowCount")) as [n|] eqn:M; cbn [getdef].
      - destruct (truthy n) eqn:Tn.
        + split; [intros _ v _ X; specialize (X n eq_refl); congruence|reflexivity].
        + destruct (member d (lit "header")) as [h|]; cbn [getdef].
          * rewrite bool_nil, nested_iff. split; [intros X v E _; injection E as <-; exact X|]. intros X. apply X; [reflexivity|]. intros n' E. injection E as <-. exact Tn.
          * split; [intros _ v E; discriminate E|reflexivity].
      - cbn [truthy]. destruct (member d (lit "header")) as [h|]; cbn [getdef].
        + rewrite bool_nil, nested_iff. split; [intros X v E _; injection E as <-; exact X|]. intros X. apply X; [reflexivity|]. intros n' E. discriminate E.
        + split; [intros _ v E; discriminate E|reflexivity]. }
    pose proof (Bo (lit "doubleQuote") true ltac:(cbn; auto 20) eq_refl eq_refl) as B1.
    pose proof (Bo (lit "skipBlankRows") false ltac:(cbn; auto 20) eq_refl eq_refl) as B2.
    pose proof (Bo (lit "skipInitialSpace") false ltac:(cbn; auto 20) eq_refl eq_refl) as B3.
    pose proof (Cn (lit "skipRows") 0%Z ltac:(cbn; auto 20) eq_refl ltac:(lia) eq_refl) as C1.
    pose proof (Cn (lit "skipColumns") 0%Z ltac:(cbn; auto 20) eq_refl ltac:(lia) eq_refl) as C2.
    pose proof (Cn (lit "headerRowCount") 1%Z ltac:(cbn; auto 20) eq_refl ltac:(lia) eq_refl) as C3.
    assert (O1 : getdef (dget str_eqb (dialect_table W) (lit "quoteChar")) (fun _ => []) (getdef (dget str_eqb kw (lit "quoteChar")) (JStr [34%N])) = [] <-> forall v, In (lit "quoteChar", v) d -> null_or (nested a_string) v).
    { apply Op; [eexists; split; [right; right; left; reflexivity|split; reflexivity]|reflexivity|right; apply ne_one; eexists; reflexivity|reflexivity]. }
    assert (O2 : getdef (dget str_eqb (dialect_table W) (lit "commentPrefix")) (fun _ => []) (getdef (dget str_eqb kw (lit "commentPrefix")) JNull) = [] <-> forall v, In (lit "commentPrefix", v) d -> null_or (nested a_string) v).
    { apply Op; [eexists; split; [do 12 right; left; reflexivity|split; reflexivity]|reflexivity|left; reflexivity|reflexivity]. }
    assert (All : (forall x, In x (meta_dialect_spec W) -> getdef (dget str_eqb (dialect_table W) (a_name x)) (fun _ => []) (getdef (dget str_eqb kw (a_name x)) (a_default x)) = []) <->
      Forall (fun nd : pystr * json => getdef (dget str_eqb (dialect_table W) (fst nd)) (fun _ => []) (getdef (dget str_eqb kw (fst nd)) (snd nd)) = []) (map (fun s => (a_name s, a_default s)) (meta_dialect_spec W))).
    { rewrite Forall_forall. split; [intros X x I; apply in_map_iff in I; destruct I as (s & <- & I); exact (X s I)|]. intros X x I. apply (X (a_name x, a_default x)). apply in_map_iff. eauto. }
    rewrite All. clear All.
    change (map (fun s => (a_name s, a_default s)) (meta_dialect_spec W)) with
      [(lit "encoding", JStr (lit "utf-8")); (lit "lineTerminators", crlf_lf); (lit "quoteChar", JStr [34%N]); (lit "doubleQuote", JBool true); (lit "skipRows", JInt 0);
       (lit "header", JBool true); (lit "headerRowCount", JInt 1); (lit "delimiter", JStr (lit ",")); (lit "skipColumns", JInt 0); (lit "skipBlankRows", JBool false);
       (lit "skipInitialSpace", JBool false); (lit "trim", JStr (lit "false")); (lit "commentPrefix", JNull)].
    rewrite !Forall_cons_iff. cbn [fst snd].
    assert (He' : getdef (dget str_eqb (dialect_table W) (lit "header")) (fun _ => []) (getdef (dget str_eqb kw (lit "header")) (JBool true)) = [] <->
      forall v, member d (lit "header") = Some v -> (forall n, member d (lit "headerRowCount") = Some n -> truthy n = false) -> nested is_bool v) by exact He.
    rewrite Enc, Lin, O1, B1, C1, He', C3, De, C2, B2, B3, Tr, O2. clear. split.
    - intros (H1 & H2 & H3 & H4 & H5 & H6 & H7 & H8 & H9 & H10 & H11 & H12 & H13 & _). split; [|exact H6]. intros k v I.
      split; try (intros ->; auto; fail); intros Hk; cbn [map In] in Hk; repeat (destruct Hk as [<-|Hk]; [auto; fail|]); destruct Hk.
    - intros [R H6]. do 5 (split; [intros v I; destruct (R _ v I) as [R1 R2 R3 R4 R5 R6 R7]; first [exact (R1 eq_refl)|exact (R2 eq_refl)|apply R4; cbn [map In]; tauto|apply R5; cbn [map In]; tauto|apply R6; cbn [map In]; tauto]|]).
      split; [exact H6|]. do 7 (split; [intros v I; destruct (R _ v I) as [R1 R2 R3 R4 R5 R6 R7]; first [exact (R3 eq_refl)|exact (R7 eq_refl)|apply R4; cbn [map In]; tauto|apply R5; cbn [map In]; tauto|apply R6; cbn [map In]; tauto]|]). constructor. }
  rewrite Spec. clear Spec. split.
  - intros ((X1 & X2) & X3 & X4). exists d. split; [reflexivity|]. split; [|exact X4]. split; auto.
  - intros (d' & E & [O1 O2 O3 O4] & X4). injection E as <-. auto.
Qed.
End Tables.
