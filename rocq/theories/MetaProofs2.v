(** Proofs about partition_properties. *)
From Verif Require Import PyStr Dsv Json Meta MetaSpec MetaProofs DsvProofs4.
Local Open Scope nat_scope.

Ltac din := match goal with |- context [in_dec ?d ?a ?b] => destruct (in_dec d a b) end.
Section Part.
Variable tag_ok : pystr -> bool.
Variables (fields : list pystr) (type_name : pystr) (strict : bool).
Notation fate_of := (fate_of fields strict).
Notation with_fate := (with_fate fields strict).
Notation expected_at := (expected_at fields strict).
Notation expected_common := (expected_common tag_ok fields strict).
Notation expected_attrs := (expected_attrs fields strict).
Notation expected_dropped := (expected_dropped fields strict).
Notation loop := (partition_loop tag_ok fields type_name strict).
Notation step := (partition_step tag_ok fields type_name strict).

Lemma at_eq (k : pystr) : startswith (lit "@") k = match k with c :: _ => (c =? 64)%N | [] => false end.
Proof. clear tag_ok type_name.
  destruct k as [|c k]; [reflexivity|]. cbn [startswith lit]. rewrite andb_true_r, N.eqb_sym. reflexivity.
Qed.
Lemma at_fate (k : pystr) : startswith (lit "@") k = true <-> fate_of k = FAt.
Proof. clear tag_ok type_name.
  unfold MetaSpec.fate_of. rewrite <- at_eq. destruct (startswith (lit "@") k); [tauto|].
  split; [discriminate|]. din; [|destruct strict; [din|]]; discriminate.
Qed.
Lemma fate_not_at (k : pystr) : startswith (lit "@") k = false ->
  fate_of k = if char_mem 58 k then FCommon else if strict && negb (str_mem k fields) then FDropped else FAttr.
Proof. clear tag_ok type_name.
  intros H. unfold MetaSpec.fate_of. rewrite <- at_eq, H. destruct (in_dec N.eq_dec 58%N k) as [I|I].
  - apply char_mem_In in I. rewrite I. reflexivity.
  - rewrite <- char_mem_In in I. destruct (char_mem 58 k); [congruence|].
    destruct strict; [|reflexivity]. cbn [andb].
    destruct (in_dec str_eq_dec k fields) as [J|J]; destruct (str_mem k fields) eqn:E2; try reflexivity;
    [apply str_mem_false in E2|apply str_mem_In in E2]; contradiction.
Qed.

(** the result of one step *)
Definition add_item (p : parts) (k : pystr) (v : json) : parts :=
  match fate_of k with
  | FAt => {| p_common := p_common p;
              p_at := dset str_eqb (p_at p) (tl k)
                        (if str_eq_dec k (lit "@id") then match v with JStr s => JStr s | _ => JNull end else v);
              p_attrs := p_attrs p |}
  | FCommon => {| p_common := dset str_eqb (p_common p) k (clean tag_ok v); p_at := p_at p; p_attrs := p_attrs p |}
  | FAttr => {| p_common := p_common p; p_at := p_at p; p_attrs := dset str_eqb (p_attrs p) k v |}
  | FDropped => p
  end.
Record item_ok (k : pystr) (v : json) : Prop := {
  io_id : forall r, k = lit "@id" -> v <> JStr (lit "_" ++ r);
  io_type : k = lit "@type" -> v = JStr type_name;
  io_common : fate_of k = FCommon -> common_ok v;
}.

Lemma common_reported v : wf_json v -> forall w ws, valid_common_property tag_ok v = Ok (w, ws) -> reported ws = [].
Proof.
  intros _. induction v as [| | | | |l IH|kvs IH] using json_ind'; intros w ws; try (intros E; injection E as <- <-; reflexivity).
  - rewrite vcp_list. assert (G : forall r, go_list tag_ok l = Ok r -> reported (snd r) = []).
    { induction l as [|x l IHl]; cbn [go_list]; intros r E; [injection E as <-; reflexivity|].
      apply Forall_cons_iff in IH. destruct IH as [I1 I2].
      destruct (valid_common_property tag_ok x) as [[y wy]|] eqn:E1; [|discriminate].
      destruct (go_list tag_ok l) as [r'|]; [|discriminate]. injection E as <-. cbn [snd]. unfold reported. rewrite flat_map_app.
      fold (reported wy) (reported (snd r')). rewrite (I1 _ _ eq_refl), (IHl I2 _ eq_refl). reflexivity. }
    destruct (go_list tag_ok l) as [r|]; [|discriminate]. intros E; injection E as <- <-. auto.
  - rewrite vcp_obj. destruct (object_check kvs); [|discriminate].
    assert (G : forall r, go_items tag_ok kvs = Ok r -> reported (snd r) = []).
    { induction kvs as [|[k x] kvs IHl]; cbn [go_items]; intros r E; [injection E as <-; reflexivity|].
      apply Forall_cons_iff in IH. destruct IH as [I1 I2]. cbn [snd] in I1.
      destruct (str_eqb k (lit "@language") && negb (good_language tag_ok x)); [auto|].
      destruct (str_eqb k (lit "@id")).
      - destruct (valid_id_property x) as [i|]; [|discriminate].
        destruct (go_items tag_ok kvs) as [r'|]; [|discriminate]. injection E as <-. cbn [snd app]. auto.
      - destruct (valid_common_property tag_ok x) as [[y wy]|] eqn:E1; [|discriminate].
        destruct (go_items tag_ok kvs) as [r'|]; [|discriminate]. injection E as <-. cbn [snd]. unfold reported. rewrite flat_map_app.
        fold (reported wy) (reported (snd r')). rewrite (I1 _ _ eq_refl), (IHl I2 _ eq_refl). reflexivity. }
    destruct (go_items tag_ok kvs) as [r|]; [|discriminate]. intros E; injection E as <- <-.
    unfold reported. rewrite !flat_map_app. fold (reported (snd r)). rewrite (G r eq_refl), app_nil_r.
    unfold id_warn, lang_warn. destruct (dget str_eqb kvs (lit "@id")) as [[]|]; cbn [flat_map app];
    destruct (dget str_eqb kvs (lit "@language")) as [x|]; try reflexivity; destruct (good_language tag_ok x); reflexivity.
Qed.

Lemma py_eq_str_iff v s : py_eq v (JStr s) = true <-> v = JStr s.
Proof. split; [apply py_eq_str|]. intros ->. cbn. apply str_eqb_refl. Qed.

Lemma step_iff p ws k v a : (fate_of k = FCommon -> wf_json v) -> (step (p, ws) (k, v) = Ok a ->
  item_ok k v /\ fst a = add_item p k v /\
  reported (snd a) = reported ws ++ (if fate_eq_dec (fate_of k) FDropped then [k] else [])) .
Proof.
  intros W. unfold partition_step, add_item. destruct (startswith (lit "@") k) eqn:S.
  - apply at_fate in S. rewrite S. destruct (fate_eq_dec FAt FDropped); [discriminate|].
    destruct (str_eqb k (lit "@id")) eqn:E1.
    + apply str_eqb_eq in E1. subst k. change (str_eqb (lit "@id") (lit "@type")) with false. cbn [andb].
      unfold valid_id_property. destruct (str_eq_dec (lit "@id") (lit "@id")) as [_|]; [|congruence].
      destruct v as [| | | |s| |]; cbn [bind fst snd];
      try (intros E; injection E as <-; cbn [fst snd]; split; [|split; [reflexivity|unfold reported; rewrite flat_map_app; reflexivity]];
           split; [discriminate|discriminate|intros C; congruence]).
      destruct (startswith (lit "_") s) eqn:E2; [discriminate|]. cbn [bind fst snd].
      intros E; injection E as <-; cbn [fst snd]; split; [|split; [reflexivity|unfold reported; rewrite flat_map_app; reflexivity]].
      split; [|discriminate|intros C; congruence]. intros r _ H. injection H as ->.
      discriminate E2.
    + cbn [bind fst snd]. destruct (str_eqb k (lit "@type")) eqn:E2; cbn [andb].
      * apply str_eqb_eq in E2. subst k. destruct (py_eq v (JStr type_name)) eqn:E3; cbn [negb]; [|discriminate].
        apply py_eq_str in E3. intros E; injection E as <-. cbn [fst snd]. split; [|split].
        -- split; [discriminate|auto|intros C; congruence].
        -- destruct (str_eq_dec (lit "@type") (lit "@id")); [discriminate|reflexivity].
        -- rewrite !app_nil_r. reflexivity.
      * intros E; injection E as <-. cbn [fst snd]. apply str_eqb_neq in E1, E2. split; [|split].
        -- split; [intros; contradiction|intros; contradiction|intros C; congruence].
        -- destruct (str_eq_dec k (lit "@id")); [contradiction|reflexivity].
        -- rewrite !app_nil_r. reflexivity.
  - pose proof (fate_not_at _ S) as F.
    assert (Nid : k <> lit "@id") by (intros ->; discriminate S). assert (Nty : k <> lit "@type") by (intros ->; discriminate S).
    rewrite F. destruct (char_mem 58 k).
    + destruct (valid_common_property tag_ok v) as [[w wv]|] eqn:E1; [|discriminate]. cbn [bind fst snd].
      specialize (W F).
      intros E; injection E as <-. cbn [fst snd]. destruct (vcp_sound tag_ok v W _ _ E1) as [H1 _].
      destruct (vcp_complete tag_ok v W H1) as [ws' E2]. rewrite E1 in E2. injection E2 as -> ->. split; [|split].
      * split; [intros; contradiction|intros; contradiction|auto].
      * reflexivity.
      * destruct (fate_eq_dec FCommon FDropped); [discriminate|]. unfold reported. rewrite flat_map_app. f_equal.
        apply (common_reported v W _ _ E1).
    + destruct (strict && negb (str_mem k fields)).
      * intros E; injection E as <-. cbn [fst snd]. split; [|split].
        -- split; [intros; contradiction|intros; contradiction|congruence].
        -- reflexivity.
        -- destruct (fate_eq_dec FDropped FDropped); [|congruence]. unfold reported. rewrite flat_map_app. reflexivity.
      * intros E; injection E as <-. cbn [fst snd]. split; [|split].
        -- split; [intros; contradiction|intros; contradiction|congruence].
        -- reflexivity.
        -- destruct (fate_eq_dec FAttr FDropped); [congruence|]. rewrite app_nil_r. reflexivity.
Qed.
Lemma step_total p ws k v : (fate_of k = FCommon -> wf_json v) -> item_ok k v -> exists a, step (p, ws) (k, v) = Ok a.
Proof.
  intros W [H1 H2 H3]. unfold partition_step. destruct (startswith (lit "@") k) eqn:S.
  - destruct (str_eqb k (lit "@id")) eqn:E1.
    + apply str_eqb_eq in E1. subst k. change (str_eqb (lit "@id") (lit "@type")) with false. cbn [andb].
      unfold valid_id_property. destruct v as [| | | |s| |]; try (eexists; reflexivity).
      destruct (startswith (lit "_") s) eqn:E2; [|eexists; reflexivity]. apply startswith_iff in E2. destruct E2 as [r ->].
      elim (H1 r eq_refl eq_refl).
    + cbn [bind fst snd]. destruct (str_eqb k (lit "@type")) eqn:E2; cbn [andb]; [|eexists; reflexivity].
      apply str_eqb_eq in E2. rewrite (H2 E2). rewrite (proj2 (py_eq_str_iff _ _) eq_refl). eexists; reflexivity.
  - rewrite (fate_not_at _ S) in H3, W. destruct (char_mem 58 k).
    + destruct (vcp_complete tag_ok v (W eq_refl) (H3 eq_refl)) as [ws' ->]. eexists; reflexivity.
    + destruct (strict && negb (str_mem k fields)); eexists; reflexivity.
Qed.
Lemma step_err a k v e : step a (k, v) = Err e -> e = ValueError.
Proof.
  unfold partition_step. destruct a as [p ws]. destruct (startswith (lit "@") k).
  - destruct (str_eqb k (lit "@id")).
    + destruct (valid_id_property v) eqn:E1; cbn [bind]; [|intros E; injection E as <-; eapply valid_id_err; eauto].
      destruct (_ && _); congruence.
    + cbn [bind]. destruct (_ && _); congruence.
  - destruct (char_mem 58 k).
    + destruct (valid_common_property tag_ok v) eqn:E1; cbn [bind]; [discriminate|]. intros E; injection E as <-; eapply vcp_err; eauto.
    + destruct (_ && _); discriminate.
Qed.
Lemma loop_err kvs : forall a e, loop a kvs = Err e -> e = ValueError.
Proof.
  induction kvs as [|[k v] kvs IH]; intros a e; cbn [partition_loop]; [discriminate|].
  destruct (step a (k, v)) as [b|e'] eqn:E; cbn [bind]; [apply IH|]. intros H; injection H as <-. eapply step_err; eauto.
Qed.

Lemma loop_sound kvs : (forall k v, In (k, v) kvs -> fate_of k = FCommon -> wf_json v) -> forall a b, loop a kvs = Ok b ->
  (forall k v, In (k, v) kvs -> item_ok k v) /\
  fst b = fold_left (fun p kv => add_item p (fst kv) (snd kv)) kvs (fst a) /\
  reported (snd b) = reported (snd a) ++ expected_dropped kvs.
Proof.
  induction kvs as [|[k v] kvs IH]; intros W a b; cbn [partition_loop].
  - intros E; injection E as <-. split; [intros k v []|]. split; [reflexivity|]. symmetry; apply app_nil_r.
  - destruct (step a (k, v)) as [c|] eqn:E; [|discriminate]. cbn [bind]. intros E2.
    destruct a as [p ws]. destruct (step_iff p ws k v c) as (A1 & A2 & A3); [apply (W k v (or_introl eq_refl))|exact E|].
    destruct (IH (fun k' v' H => W k' v' (or_intror H)) _ _ E2) as (B1 & B2 & B3). split; [|split].
    + intros k' v' [H|H]; [injection H as <- <-; exact A1|auto].
    + rewrite B2, A2. reflexivity.
    + rewrite B3, A3. rewrite <- app_assoc. f_equal. unfold MetaSpec.expected_dropped, MetaSpec.with_fate. cbn [filter fst].
      destruct (fate_eq_dec (fate_of k) FDropped); reflexivity.
Qed.
Lemma loop_total kvs : (forall k v, In (k, v) kvs -> fate_of k = FCommon -> wf_json v) -> (forall k v, In (k, v) kvs -> item_ok k v) ->
  forall a, exists b, loop a kvs = Ok b.
Proof.
  induction kvs as [|[k v] kvs IH]; intros W H a; cbn [partition_loop]; [eexists; reflexivity|].
  destruct a as [p ws]. destruct (step_total p ws k v) as [c ->]; [apply (W k v (or_introl eq_refl))|apply H; left; auto|].
  cbn [bind]. apply IH; [intros k' v' Hin; exact (W k' v' (or_intror Hin))|intros; apply H; right; auto].
Qed.

(** distinct keys: the dictionaries are the expected lists *)
Lemma tl_at_inj k k' : fate_of k = FAt -> fate_of k' = FAt -> tl k = tl k' -> k = k'.
Proof. clear tag_ok type_name.
  intros H1 H2. apply at_fate in H1, H2. apply startswith_iff in H1, H2. destruct H1 as [r ->], H2 as [r' ->].
  cbn. congruence.
Qed.
Lemma fold_add kvs : NoDup (map fst kvs) -> forall p,
  (forall k v, In (k, v) kvs -> ~ In k (map fst (p_common p)) /\ ~ In k (map fst (p_attrs p)) /\
                                (fate_of k = FAt -> ~ In (tl k) (map fst (p_at p)))) ->
  fold_left (fun p kv => add_item p (fst kv) (snd kv)) kvs p =
  {| p_common := p_common p ++ expected_common kvs; p_at := p_at p ++ expected_at kvs; p_attrs := p_attrs p ++ expected_attrs kvs |}.
Proof.
  induction kvs as [|[k v] kvs IH]; intros N p D.
  - cbn. rewrite !app_nil_r. destruct p; reflexivity.
  - cbn [fold_left fst snd]. cbn [map fst] in N. apply NoDup_cons_iff in N. destruct N as [N1 N2].
    assert (Nk : forall k' v', In (k', v') kvs -> k' <> k).
    { intros k' v' H ->. apply N1, in_map_iff. exists (k, v'); auto. }
    destruct (D k v (or_introl eq_refl)) as (D1 & D2 & D3).
    assert (D' : forall k' v', In (k', v') kvs -> ~ In k' (map fst (p_common p)) /\ ~ In k' (map fst (p_attrs p)) /\
                                (fate_of k' = FAt -> ~ In (tl k') (map fst (p_at p)))).
    { intros k' v' H. apply (D k' v'); right; auto. }
    unfold MetaSpec.expected_common, MetaSpec.expected_at, MetaSpec.expected_attrs, MetaSpec.with_fate in *. cbn [filter fst].
    unfold add_item at 2. destruct (fate_of k) eqn:F.
    + rewrite (dset_new _ str_eqb_eq) by auto. rewrite IH; [|exact N2|].
      * cbn [p_common p_at p_attrs]. destruct (fate_eq_dec FAt FCommon); [discriminate|].
        destruct (fate_eq_dec FAt FAt); [|congruence]. destruct (fate_eq_dec FAt FAttr); [discriminate|].
        cbn [map fst snd]. rewrite <- app_assoc. reflexivity.
      * cbn [p_common p_at p_attrs]. intros k' v' H. destruct (D' k' v' H) as (Q1 & Q2 & Q3). repeat split; auto.
        intros F'. rewrite map_app, in_app_iff. cbn. intros [H'|[H'|[]]]; [apply Q3; auto|].
        apply (Nk k' v' H). apply tl_at_inj; auto.
    + rewrite (dset_new _ str_eqb_eq) by auto. rewrite IH; [|exact N2|].
      * cbn [p_common p_at p_attrs]. destruct (fate_eq_dec FCommon FCommon); [|congruence].
        destruct (fate_eq_dec FCommon FAt); [discriminate|]. destruct (fate_eq_dec FCommon FAttr); [discriminate|].
        cbn [map fst snd]. rewrite <- app_assoc. reflexivity.
      * cbn [p_common p_at p_attrs]. intros k' v' H. destruct (D' k' v' H) as (Q1 & Q2 & Q3). repeat split; auto.
        rewrite map_app, in_app_iff. cbn. intros [H'|[H'|[]]]; [auto|]. apply (Nk k' v' H); auto.
    + rewrite (dset_new _ str_eqb_eq) by auto. rewrite IH; [|exact N2|].
      * cbn [p_common p_at p_attrs]. destruct (fate_eq_dec FAttr FCommon); [discriminate|].
        destruct (fate_eq_dec FAttr FAt); [discriminate|]. destruct (fate_eq_dec FAttr FAttr); [|congruence].
        rewrite <- app_assoc. reflexivity.
      * cbn [p_common p_at p_attrs]. intros k' v' H. destruct (D' k' v' H) as (Q1 & Q2 & Q3). repeat split; auto.
        rewrite map_app, in_app_iff. cbn. intros [H'|[H'|[]]]; [auto|]. apply (Nk k' v' H); auto.
    + rewrite IH; [|exact N2|exact D']. destruct (fate_eq_dec FDropped FCommon); [discriminate|].
      destruct (fate_eq_dec FDropped FAt); [discriminate|]. destruct (fate_eq_dec FDropped FAttr); [discriminate|]. reflexivity.
Qed.

Notation partition := (partition_properties tag_ok fields type_name strict).
Notation accepted := (accepted fields type_name strict).
Lemma accepted_iff kvs : accepted kvs <->
  (forall k v, In (k, v) kvs -> item_ok k v) /\
  ~ In (lit "common_props") (map fst (expected_attrs kvs)) /\ ~ In (lit "at_props") (map fst (expected_attrs kvs)).
Proof.
  assert (X : forall n, ~ In n (map fst (expected_attrs kvs)) <-> forall k v, In (k, v) kvs -> fate_of k = FAttr -> k <> n).
  { intros n. unfold MetaSpec.expected_attrs, MetaSpec.with_fate. rewrite in_map_iff. split.
    - intros H k v Hin F ->. apply H. exists (n, v). split; [reflexivity|]. apply filter_In. split; [auto|]. cbn [fst].
      rewrite F. destruct (fate_eq_dec FAttr FAttr); congruence.
    - intros H ([k v] & E & Hin). apply filter_In in Hin. destruct Hin as [Hin F]. cbn [fst] in *. subst k.
      destruct (fate_eq_dec (fate_of n) FAttr) as [F'|]; [|discriminate]. apply (H n v Hin F'). reflexivity. }
  rewrite !X. split.
  - intros [H1 H2 H3 H4]. split; [|split].
    + intros k v Hin. split.
      * intros r -> ->. apply (H1 r Hin).
      * intros ->. apply H2, Hin.
      * intros F. apply (H3 k v Hin F).
    + intros k v Hin F. apply (H4 k v Hin F).
    + intros k v Hin F. apply (H4 k v Hin F).
  - intros (H1 & H2 & H3). split.
    + intros r Hin. apply (io_id _ _ (H1 _ _ Hin) r eq_refl eq_refl).
    + intros v Hin. apply (io_type _ _ (H1 _ _ Hin) eq_refl).
    + intros k v Hin F. apply (io_common _ _ (H1 _ _ Hin) F).
    + intros k v Hin F. split; eauto.
Qed.

Lemma partition_obj kvs : partition (JObj kvs) =
  (r <- loop ({| p_common := []; p_at := []; p_attrs := [] |}, []) kvs ;;
      if str_mem (lit "common_props") (map fst (p_attrs (fst r))) || str_mem (lit "at_props") (map fst (p_attrs (fst r)))
      then Err TypeError else Ok (Some (fst r), snd r)).
Proof. destruct kvs; reflexivity. Qed.

Lemma partition_sound' kvs o ws : NoDup (map fst kvs) -> (forall k v, In (k, v) kvs -> fate_of k = FCommon -> wf_json v) -> partition (JObj kvs) = Ok (o, ws) ->
  accepted kvs /\
  o = Some {| p_common := expected_common kvs; p_at := expected_at kvs; p_attrs := expected_attrs kvs |} /\
  reported ws = expected_dropped kvs.
Proof.
  intros N W. rewrite partition_obj.
  destruct (loop _ kvs) as [[p ws']|] eqn:E; [|discriminate]. cbn [bind fst snd].
  destruct (loop_sound kvs W _ _ E) as (A1 & A2 & A3). cbn [fst snd] in A2, A3.
  rewrite (fold_add kvs N) in A2 by (cbn; tauto). cbn [p_common p_at p_attrs app] in A2. subst p.
  cbn [p_attrs]. destruct (str_mem (lit "common_props") _) eqn:E1; [discriminate|].
  destruct (str_mem (lit "at_props") _) eqn:E2; [discriminate|]. cbn [orb]. intros H; injection H as <- <-.
  split; [|split; [reflexivity|exact A3]]. apply accepted_iff. apply str_mem_false in E1, E2. auto.
Qed.
Lemma partition_complete' kvs : NoDup (map fst kvs) -> (forall k v, In (k, v) kvs -> fate_of k = FCommon -> wf_json v) -> accepted kvs -> exists r, partition (JObj kvs) = Ok r.
Proof.
  intros N W A. rewrite partition_obj. apply accepted_iff in A. destruct A as (A1 & A2 & A3).
  destruct (loop_total kvs W A1 ({| p_common := []; p_at := []; p_attrs := [] |}, [])) as [[p ws] E]. rewrite E. cbn [bind fst snd].
  destruct (loop_sound kvs W _ _ E) as (B1 & B2 & B3). cbn [fst snd] in B2.
  rewrite (fold_add kvs N) in B2 by (cbn; tauto). cbn [p_common p_at p_attrs app] in B2. subst p. cbn [p_attrs].
  apply str_mem_false in A2, A3. rewrite A2, A3. eexists; reflexivity.
Qed.

Lemma partition_sound kvs o ws : wf_json (JObj kvs) -> partition (JObj kvs) = Ok (o, ws) ->
  accepted kvs /\
  o = Some {| p_common := expected_common kvs; p_at := expected_at kvs; p_attrs := expected_attrs kvs |} /\
  reported ws = expected_dropped kvs.
Proof. intros W. apply wf_obj in W. destruct W as [N W]. apply partition_sound'; eauto. Qed.
Lemma partition_complete kvs : wf_json (JObj kvs) -> accepted kvs -> exists r, partition (JObj kvs) = Ok r.
Proof. intros W. apply wf_obj in W. destruct W as [N W]. apply partition_complete'; eauto. Qed.

(** every key exactly once *)
Lemma with_fate_In f kvs k v : In (k, v) (with_fate f kvs) <-> In (k, v) kvs /\ fate_of k = f.
Proof. clear tag_ok type_name. unfold MetaSpec.with_fate. rewrite filter_In. cbn [fst]. destruct (fate_eq_dec (fate_of k) f); intuition congruence. Qed.
Lemma fate_lengths kvs :
  length (with_fate FAt kvs) + length (with_fate FCommon kvs) + length (with_fate FAttr kvs) + length (with_fate FDropped kvs) = length kvs.
Proof. clear tag_ok type_name.
  unfold MetaSpec.with_fate. induction kvs as [|[k v] kvs IH]; [reflexivity|]. cbn [filter fst].
  destruct (fate_of k);
  repeat match goal with |- context [fate_eq_dec ?a ?b] => destruct (fate_eq_dec a b); try discriminate; try congruence end; cbn [length]; lia.
Qed.
End Part.
