(** Generic facts about [fromvalue] and [asdict] of description classes. *)
From Verif Require Import PyStr Dsv Json Dialects NatLang Datatype Meta MetaSpec MetaProofs MetaProofs2 MetaProofs3 DsvProofs4 Descr.
From Coq Require Import Permutation Sorted.
Local Open Scope nat_scope.

(** ** sorting *)
Definition key_le (a b : pystr * json) : Prop := str_leb (fst a) (fst b) = true.
Lemma str_leb_total : forall a b, str_leb a b = false -> str_leb b a = true.
Proof.
  induction a as [|x a IH]; intros [|y b]; cbn; try discriminate; [reflexivity|].
  intros H. apply orb_false_iff in H. destruct H as [H1 H2]. apply N.ltb_ge in H1. apply orb_true_iff.
  destruct (N.eqb_spec x y) as [->|Hn].
  - right. rewrite N.eqb_refl. cbn [andb]. apply IH. exact H2.
  - left. apply N.ltb_lt. lia.
Qed.
Lemma insert_perm kv l : Permutation (insert_item kv l) (kv :: l).
Proof.
  induction l as [|x l IH]; cbn; [reflexivity|]. destruct (str_leb (fst kv) (fst x)); [reflexivity|].
  rewrite IH. apply perm_swap.
Qed.
Lemma sort_items_perm l : Permutation (sort_items l) l.
Proof. induction l as [|x l IH]; [reflexivity|]. cbn [sort_items fold_right]. rewrite insert_perm. constructor. exact IH. Qed.
Lemma insert_sorted kv l : Sorted key_le l -> Sorted key_le (insert_item kv l).
Proof.
  induction l as [|x l IH]; intros S; cbn; [repeat constructor|]. destruct (str_leb (fst kv) (fst x)) eqn:E.
  - constructor; [exact S|]. constructor. exact E.
  - apply Sorted_inv in S. destruct S as [S1 S2]. constructor; [apply IH, S1|]. apply str_leb_total in E.
    destruct l as [|y l]; cbn; [constructor; exact E|]. destruct (str_leb (fst kv) (fst y)); constructor; [exact E|].
    inversion S2; assumption.
Qed.
Lemma sort_sorted l : Sorted key_le (sort_items l).
Proof. induction l as [|x l IH]; [constructor|]. apply insert_sorted, IH. Qed.
Lemma sorted_sort l : Sorted key_le l -> sort_items l = l.
Proof.
  induction l as [|x l IH]; intros S; [reflexivity|]. apply Sorted_inv in S. destruct S as [S1 S2].
  cbn [sort_items fold_right]. fold (sort_items l). rewrite (IH S1). destruct l as [|y l]; [reflexivity|].
  cbn [insert_item]. inversion S2 as [|? ? R]. unfold key_le in R. rewrite R. reflexivity.
Qed.
Lemma sort_idem l : sort_items (sort_items l) = sort_items l.
Proof. apply sorted_sort, sort_sorted. Qed.

Lemma mapM_Forall2 {A A'} (g : A -> res A') l r : mapM g l = Ok r <-> Forall2 (fun a b => g a = Ok b) l r.
Proof.
  revert r; induction l as [|a l IH]; intros r; cbn.
  - split; [intros E; injection E as <-; constructor|]. intros H; inversion H; reflexivity.
  - split.
    + destruct (g a) as [b|] eqn:E; [|discriminate]. cbn. destruct (mapM g l) as [bs|] eqn:E2; [|discriminate].
      cbn. intros H; injection H as <-. constructor; [exact E|]. apply IH; reflexivity.
    + intros H. inversion H as [|? b ? bs E F]; subst. rewrite E. cbn. apply IH in F. rewrite F. reflexivity.
Qed.

Section Generic.
Context {B : Type} (env : world B).
Notation tag_ok := (w_tag_ok env).
Notation field := (field B). Notation class := (class B). Notation mobj := (mobj B). Notation mval := (mval B).
Notation fromvalue := (fromvalue env).

(** names that are filed as attributes *)
Definition plain_name (n : pystr) : Prop := startswith (lit "@") n = false /\ char_mem 58 n = false /\
  n <> lit "common_props" /\ n <> lit "at_props".
Definition plain_nameb (n : pystr) : bool :=
  negb (startswith (lit "@") n) && negb (char_mem 58 n) && negb (str_mem n [lit "common_props"; lit "at_props"]).
Lemma plain_nameb_ok n : plain_nameb n = true -> plain_name n.
Proof.
  unfold plain_nameb, plain_name. rewrite !andb_true_iff, !negb_true_iff. intros [[H1 H2] H3]. apply str_mem_false in H3.
  repeat split; auto; intros ->; apply H3; cbn; auto.
Qed.
Fixpoint nodupb (l : list pystr) : bool := match l with [] => true | x :: r => negb (str_mem x r) && nodupb r end.
Lemma nodupb_ok l : nodupb l = true -> NoDup l.
Proof.
  induction l as [|x l IH]; cbn; [constructor|]. rewrite andb_true_iff, negb_true_iff, str_mem_false. intros [H1 H2].
  constructor; auto.
Qed.
(** public names are plain and distinct, and none is private *)
Definition names_ok (C : class) : Prop :=
  forallb plain_nameb (field_names C) = true /\ nodupb (field_names C) = true.

Definition common_item_ok (kv : pystr * json) : Prop :=
  startswith (lit "@") (fst kv) = false /\ char_mem 58 (fst kv) = true /\
  wf_json (snd kv) /\ common_ok (snd kv) /\ clean tag_ok (snd kv) = snd kv.
(** what is stored in a description's common_props and at_props *)
Record stored_ok (C : class) (common at_ : list (pystr * json)) : Prop := {
  st_common : Forall common_item_ok common;
  st_common_sorted : Sorted key_le common;
  st_common_nodup : NoDup (map fst common);
  st_at_sorted : Sorted key_le at_;
  st_at_nodup : NoDup (map fst at_);
  st_type : forall v, In (lit "type", v) at_ -> v = JStr (cl_name C);
  st_id : forall v, In (lit "id", v) at_ -> v = JNull \/ exists s, v = JStr s /\ startswith (lit "_") s = false;
}.

Lemma fate_common_iff fields k : fate_of fields true k = FCommon <-> startswith (lit "@") k = false /\ char_mem 58 k = true.
Proof.
  destruct (startswith (lit "@") k) eqn:E.
  - apply (at_fate fields true) in E. rewrite E. split; [discriminate|intros []; discriminate].
  - rewrite (fate_not_at fields true k E). destruct (char_mem 58 k); [tauto|].
    destruct (true && _); split; try discriminate; intros []; discriminate.
Qed.
Lemma fate_at_iff fields k : fate_of fields true k = FAt <-> exists k', k = lit "@" ++ k'.
Proof. rewrite <- (at_fate fields true). apply startswith_iff. Qed.
Lemma fate_field (C : class) n : In n (all_names C) -> plain_name n -> fate_of (all_names C) true n = FAttr.
Proof.
  intros H (P1 & P2 & _). rewrite (fate_not_at _ _ _ P1), P2. apply str_mem_In in H. rewrite H. reflexivity.
Qed.

(** ** building *)
Lemma new_object_inv (C : class) (p : parts) o : new_object C p = Ok o -> exists vals,
  forallb (fun kv => str_mem (fst kv) (field_names C)) (p_attrs p) = true /\
  Forall2 (fun f v => fd_conv f (getdef (dget str_eqb (p_attrs p) (fd_name f)) (fd_default f)) = Ok v) (cl_fields C) vals /\
  cl_post C (MO None (sort_items (p_common p)) (sort_items (p_at p)) vals) = Ok o.
Proof.
  unfold new_object. destruct (forallb _ _) eqn:F; [|discriminate]. cbn [negb].
  destruct (mapM _ _) as [vals|] eqn:M; [|discriminate]. cbn [bind]. intros H. exists vals.
  split; [reflexivity|]. split; [apply mapM_Forall2, M|exact H].
Qed.

(** the conversion of a (possibly absent) JSON value *)
Definition converted (f : field) (v : mval) : Prop :=
  exists j, wf_json j /\ fd_conv f j = Ok v.

Lemma with_fate_all_common fields kvs : Forall (fun kv => fate_of fields true (fst kv) = FCommon) kvs ->
  with_fate fields true FCommon kvs = kvs /\ with_fate fields true FAt kvs = [] /\ with_fate fields true FAttr kvs = [].
Proof.
  unfold with_fate. induction kvs as [|kv kvs IH]; intros H; [auto|]. apply Forall_cons_iff in H. destruct H as [H1 H2].
  destruct (IH H2) as (I1 & I2 & I3). cbn [filter]. rewrite H1, I1, I2, I3. auto.
Qed.
Lemma with_fate_all_at fields kvs : Forall (fun kv => fate_of fields true (fst kv) = FAt) kvs ->
  with_fate fields true FAt kvs = kvs /\ with_fate fields true FCommon kvs = [] /\ with_fate fields true FAttr kvs = [].
Proof.
  unfold with_fate. induction kvs as [|kv kvs IH]; intros H; [auto|]. apply Forall_cons_iff in H. destruct H as [H1 H2].
  destruct (IH H2) as (I1 & I2 & I3). cbn [filter]. rewrite H1, I1, I2, I3. auto.
Qed.
Lemma with_fate_all_attr fields kvs : Forall (fun kv => fate_of fields true (fst kv) = FAttr) kvs ->
  with_fate fields true FAttr kvs = kvs /\ with_fate fields true FCommon kvs = [] /\ with_fate fields true FAt kvs = [].
Proof.
  unfold with_fate. induction kvs as [|kv kvs IH]; intros H; [auto|]. apply Forall_cons_iff in H. destruct H as [H1 H2].
  destruct (IH H2) as (I1 & I2 & I3). cbn [filter]. rewrite H1, I1, I2, I3. auto.
Qed.
Lemma with_fate_app fields f a b : with_fate fields true f (a ++ b) = with_fate fields true f a ++ with_fate fields true f b.
Proof. apply filter_app. Qed.

Lemma perm_nodup_fst {A} (l m : list (pystr * A)) : Permutation l m -> NoDup (map fst m) -> NoDup (map fst l).
Proof. intros P H. eapply Permutation_NoDup; [apply Permutation_map, Permutation_sym, P|exact H]. Qed.

Lemma NoDup_app_intro {A} (a b : list A) : NoDup a -> NoDup b -> (forall x, In x a -> In x b -> False) -> NoDup (a ++ b).
Proof.
  intros Na Nb D. induction Na as [|x a Hx Na IH]; [exact Nb|]. cbn [app]. constructor.
  - intros H. apply in_app_iff in H. destruct H as [H|H]; [exact (Hx H)|]. apply (D x); [left; reflexivity|exact H].
  - apply IH. intros y Hy. apply D. right; exact Hy.
Qed.

Lemma fromvalue_inv (C : class) d o : wf_json d -> (forall f, In f (cl_fields C) -> wf_json (fd_default f)) ->
  fromvalue C d = Ok o ->
  exists common at_ vals, stored_ok C common at_ /\ Forall2 converted (cl_fields C) vals /\
    cl_post C (MO None common at_ vals) = Ok o.
Proof.
  intros W D. unfold Descr.fromvalue. intros H.
  destruct (partition_properties tag_ok (all_names C) (cl_name C) true d) as [[po ws]|] eqn:P; [|discriminate].
  cbn [bind fst] in H. destruct po as [p|]; [|discriminate].
  assert (G : exists kvs, (forall k v, In (k, v) kvs -> wf_json v) /\ NoDup (map fst kvs) /\
     accepted (all_names C) (cl_name C) true kvs /\
     p = {| p_common := expected_common tag_ok (all_names C) true kvs; p_at := expected_at (all_names C) true kvs;
            p_attrs := expected_attrs (all_names C) true kvs |}).
  { assert (G0 : exists kvs, wf_json (JObj kvs) /\ partition_properties tag_ok (all_names C) (cl_name C) true (JObj kvs) = Ok (Some p, ws)).
    { unfold partition_properties in P. destruct (truthy d) eqn:T.
      - destruct d as [| | | | | |kvs]; try discriminate P. exists kvs. split; [exact W|]. unfold partition_properties.
        rewrite T. exact P.
      - exists []. split; [apply wf_obj; split; [apply NoDup_nil|intros k v []]|exact P]. }
    destruct G0 as (kvs & W' & P'). pose proof W' as W2. apply wf_obj in W2. destruct W2 as [N W2]. exists kvs.
    split; [exact W2|]. split; [exact N|].
    destruct (partition_sound' tag_ok (all_names C) (cl_name C) true kvs (Some p) ws N) as (A & E & _); [|exact P'|].
    { intros k v Hin _. eapply W2, Hin. }
    split; [exact A|congruence]. }
  destruct G as (kvs & Wk & N & A & ->). apply new_object_inv in H. destruct H as (vals & F & V & H).
  cbn [p_common p_at p_attrs] in *.
  eexists _, _, vals. split; [|split; [|exact H]].
  - split.
    + eapply Permutation_Forall; [apply Permutation_sym, sort_items_perm|]. apply Forall_forall. intros [k v] Hin.
      unfold expected_common in Hin. apply in_map_iff in Hin. destruct Hin as ([k0 v0] & E & Hin). cbn [fst snd] in E.
      injection E as -> <-. apply with_fate_In in Hin. destruct Hin as [Hin Fk].
      pose proof (acc_common _ _ _ _ A _ _ Hin Fk) as Ck. apply fate_common_iff in Fk. destruct Fk as [F1 F2].
      unfold common_item_ok. cbn [fst snd]. split; [exact F1|]. split; [exact F2|].
      split; [apply clean_wf; eauto|]. split; [apply clean_common_ok; eauto|apply clean_idem].
    + apply sort_sorted.
    + eapply perm_nodup_fst; [apply sort_items_perm|]. unfold expected_common. rewrite map_map. cbn [fst].
      unfold with_fate. clear - N. induction kvs as [|[k v] kvs IH]; [constructor|]. cbn [map fst] in N. apply NoDup_cons_iff in N.
      destruct N as [N1 N2]. cbn [filter fst]. destruct (fate_eq_dec _ _); [|auto]. cbn [map fst]. constructor; [|auto].
      intros Hin. apply N1. apply in_map_iff in Hin. destruct Hin as (x & E & Hin). apply filter_In in Hin. apply in_map_iff. exists x; tauto.
    + apply sort_sorted.
    + eapply perm_nodup_fst; [apply sort_items_perm|]. unfold expected_at. rewrite map_map. cbn [fst].
      unfold with_fate. clear - N. induction kvs as [|[k v] kvs IH]; [constructor|]. cbn [map fst] in N. apply NoDup_cons_iff in N.
      destruct N as [N1 N2]. cbn [filter fst]. destruct (fate_eq_dec (fate_of (all_names C) true k) FAt) as [Fk|]; [|auto]. cbn [map fst].
      constructor; [|auto].
      intros Hin. apply N1. apply in_map_iff in Hin. destruct Hin as (x & E & Hin). apply filter_In in Hin. destruct Hin as [Hin Fx].
      destruct x as [k1 v1]. cbn [fst] in *. destruct (fate_eq_dec (fate_of (all_names C) true k1) FAt) as [Fx'|] in Fx; [|discriminate Fx].
      apply in_map_iff. exists (k1, v1). split; [|exact Hin]. eapply tl_at_inj; eauto.
    + intros v Hin. apply (Permutation_in _ (sort_items_perm _)) in Hin. unfold expected_at in Hin. apply in_map_iff in Hin.
      destruct Hin as ([k0 v0] & E & Hin). cbn [fst snd] in E. apply with_fate_In in Hin. destruct Hin as [Hin Fk].
      apply fate_at_iff in Fk. destruct Fk as [k' ->]. change (tl (lit "@" ++ k')) with k' in E. pose proof (f_equal fst E) as E1. pose proof (f_equal snd E) as E2. cbn [fst snd] in E1, E2. clear E. subst k'.
      match type of E2 with context [str_eq_dec ?a ?b] => destruct (str_eq_dec a b) as [D1|D1] in E2 end; [discriminate D1|]. subst v0. apply (acc_type _ _ _ _ A _ Hin).
    + intros v Hin. apply (Permutation_in _ (sort_items_perm _)) in Hin. unfold expected_at in Hin. apply in_map_iff in Hin.
      destruct Hin as ([k0 v0] & E & Hin). cbn [fst snd] in E. apply with_fate_In in Hin. destruct Hin as [Hin Fk].
      apply fate_at_iff in Fk. destruct Fk as [k' ->]. change (tl (lit "@" ++ k')) with k' in E. pose proof (f_equal fst E) as E1. pose proof (f_equal snd E) as E2. cbn [fst snd] in E1, E2. clear E. subst k'.
      match type of E2 with context [str_eq_dec ?a ?b] => destruct (str_eq_dec a b) as [D1|D1] in E2 end; [|elim D1; reflexivity]. subst v.
      destruct v0 as [| | | |s| |]; auto. right. exists s. split; [reflexivity|]. destruct (startswith (lit "_") s) eqn:S; [|reflexivity].
      apply startswith_iff in S. destruct S as [r ->]. elim (acc_id _ _ _ _ A r Hin).
  - clear H. assert (Wa : forall k v, In (k, v) (expected_attrs (all_names C) true kvs) -> wf_json v).
    { intros k v Hin. unfold expected_attrs in Hin. apply with_fate_In in Hin. eapply Wk, Hin. }
    revert Wa D V. generalize (expected_attrs (all_names C) true kvs). clear. intros attrs Wa D V.
    induction V as [|f v fs vs E V IH]; constructor.
    + eexists. split; [|exact E]. destruct (dget str_eqb attrs (fd_name f)) as [j|] eqn:G; cbn [getdef].
      * apply dget_Some_In in G. eapply Wa, G.
      * apply D. left; reflexivity.
    + apply IH. intros f' Hf. apply D. right; exact Hf.
Qed.

(** ** serialising and building again *)
(** a value that is not in the result of asdict *)
Definition omitted (omit : bool) (f : field) (w : mval) : bool := omit && equals_default (fd_default f) w.
(** the value [p] an attribute is converted to when built from the serialisation of [w] *)
Definition rebuilt (omit : bool) (f : field) (w p : mval) : Prop :=
  if omitted omit f w then fd_conv f (fd_default f) = Ok p
  else exists j, fd_ser f omit w = Ok j /\
       (if is_empty j then if str_eqb (fd_name f) (lit "null") then fd_conv f j = Ok p else fd_conv f (fd_default f) = Ok p
        else fd_conv f j = Ok p).

Lemma asdict_attrs_cons omit (f : field) fs w ws : asdict_attrs omit (f :: fs) (w :: ws) =
  if omitted omit f w then asdict_attrs omit fs ws
  else j <- fd_ser f omit w ;; r <- asdict_attrs omit fs ws ;; Ok ((fd_name f, j) :: r).
Proof.
  unfold asdict_attrs, omitted. cbn [combine filter fst snd]. destruct (omit && _); [reflexivity|]. cbn [negb mapM fst snd bind].
  destruct (fd_ser f omit w); reflexivity.
Qed.
Definition keep (kv : pystr * json) : bool := str_eqb (fst kv) (lit "null") || negb (is_empty (snd kv)).

Lemma asdict_attrs_keys omit (fs : list field) : forall ws attrs, asdict_attrs omit fs ws = Ok attrs ->
  forall k, In k (map fst attrs) -> In k (map (fd_name) fs).
Proof.
  induction fs as [|f fs IH]; intros ws attrs E k Hk.
  - injection E as <-. exact Hk.
  - destruct ws as [|w ws]; [injection E as <-; destruct Hk|]. rewrite asdict_attrs_cons in E.
    destruct (omitted omit f w); [right; eapply IH; eauto|].
    destruct (fd_ser f omit w) as [j|]; [|discriminate]. cbn [bind] in E.
    destruct (asdict_attrs omit fs ws) as [r|] eqn:E2; [|discriminate]. cbn [bind] in E. injection E as <-.
    destruct Hk as [<-|Hk]; [left; reflexivity|right; eapply IH; eauto].
Qed.
Lemma asdict_attrs_nodup omit (fs : list field) : NoDup (map (fd_name) fs) -> forall ws attrs, asdict_attrs omit fs ws = Ok attrs ->
  NoDup (map fst attrs).
Proof.
  induction fs as [|f fs IH]; intros N ws attrs E.
  - injection E as <-. constructor.
  - cbn [map] in N. apply NoDup_cons_iff in N. destruct N as [N1 N2].
    destruct ws as [|w ws]; [injection E as <-; constructor|]. rewrite asdict_attrs_cons in E.
    destruct (omitted omit f w); [eapply IH; eauto|].
    destruct (fd_ser f omit w) as [j|]; [|discriminate]. cbn [bind] in E.
    destruct (asdict_attrs omit fs ws) as [r|] eqn:E2; [|discriminate]. cbn [bind] in E. injection E as <-.
    cbn [map fst]. constructor; [|eapply IH; eauto]. intros H. apply N1. eapply asdict_attrs_keys; eauto.
Qed.
Lemma dget_skip {A} (k k' : pystr) (v : A) d : k <> k' -> dget str_eqb ((k', v) :: d) k = dget str_eqb d k.
Proof. intros H. cbn [dget]. apply str_eqb_neq in H. rewrite H. reflexivity. Qed.
Lemma NoDup_filter_fst {A} (p : pystr * A -> bool) (l : list (pystr * A)) : NoDup (map fst l) -> NoDup (map fst (filter p l)).
Proof.
  induction l as [|x l IH]; intros N; [constructor|]. cbn [map] in N. apply NoDup_cons_iff in N. destruct N as [N1 N2].
  cbn [filter]. destruct (p x); [|auto]. cbn [map]. constructor; [|auto]. intros H. apply N1.
  apply in_map_iff in H. destruct H as (y & E & H). apply filter_In in H. apply in_map_iff. exists y; tauto.
Qed.

(** the values that come out of the converters *)
Lemma rebuilt_values omit : forall (fs : list field) ws ps attrs, NoDup (map (fd_name) fs) ->
  asdict_attrs omit fs ws = Ok attrs -> Forall2 (fun fw p => rebuilt omit (fst fw) (snd fw) p) (combine fs ws) ps ->
  length fs = length ws ->
  forall attrs', (forall f, In f fs -> dget str_eqb attrs' (fd_name f) = dget str_eqb (filter keep attrs) (fd_name f)) ->
  mapM (fun f => fd_conv f (getdef (dget str_eqb attrs' (fd_name f)) (fd_default f))) fs = Ok ps.
Proof.
  induction fs as [|f fs IH]; intros ws ps attrs N E R L attrs' G.
  - cbn in R. inversion R. reflexivity.
  - destruct ws as [|w ws]; [discriminate L|]. cbn [combine] in R. inversion R as [|? p ? ps' R1 R2]; subst. cbn [fst snd] in R1.
    rewrite asdict_attrs_cons in E. cbn [map] in N. apply NoDup_cons_iff in N. destruct N as [N1 N2]. injection L as L.
    assert (Nk : forall r, asdict_attrs omit fs ws = Ok r -> dget str_eqb (filter keep r) (fd_name f) = None).
    { intros r Er. apply NotIn_dget. intros H. apply in_map_iff in H. destruct H as (x & Ex & H). apply filter_In in H.
      apply N1. eapply asdict_attrs_keys; [exact Er|]. apply in_map_iff. exists x; tauto. }
    cbn [mapM]. rewrite (G f (or_introl eq_refl)). unfold rebuilt in R1. destruct (omitted omit f w) eqn:O.
    + rewrite (Nk _ E). cbn [getdef]. rewrite R1. cbn [bind].
      rewrite (IH ws ps' attrs N2 E R2 L attrs'); [reflexivity|]. intros f' Hf. apply G. right; exact Hf.
    + destruct R1 as (j & Ej & R1). rewrite Ej in E. cbn [bind] in E.
      destruct (asdict_attrs omit fs ws) as [r|] eqn:E2; [|discriminate]. cbn [bind] in E. injection E as <-.
      assert (G' : forall f', In f' fs -> dget str_eqb attrs' (fd_name f') = dget str_eqb (filter keep r) (fd_name f')).
      { intros f' Hf. rewrite (G f' (or_intror Hf)). cbn [filter]. destruct (keep (fd_name f, j)); [|reflexivity].
        apply dget_skip. intros H. apply N1. rewrite <- H. apply in_map, Hf. }
      assert (C1 : fd_conv f (getdef (dget str_eqb (filter keep ((fd_name f, j) :: r)) (fd_name f)) (fd_default f)) = Ok p).
      { cbn [filter]. unfold keep at 1. cbn [fst snd]. destruct (is_empty j) eqn:Em; cbn [negb].
        - rewrite orb_false_r. destruct (str_eqb (fd_name f) (lit "null")).
          + cbn [dget]. rewrite str_eqb_refl. exact R1.
          + rewrite (Nk _ eq_refl). exact R1.
        - rewrite orb_true_r. cbn [dget]. rewrite str_eqb_refl. exact R1. }
      rewrite C1. cbn [bind]. rewrite (IH ws ps' r N2 E2 R2 L attrs' G'). reflexivity.
Qed.

Lemma filter_all {A} (p : A -> bool) l : Forall (fun x => p x = true) l -> filter p l = l.
Proof. induction l as [|x l IH]; intros H; [reflexivity|]. apply Forall_cons_iff in H. destruct H as [H1 H2]. cbn. rewrite H1, IH; auto. Qed.
Definition nonempty (kv : pystr * json) : Prop := is_empty (snd kv) = false.

Theorem rebuild (C : class) omit o d ps :
  names_ok C -> stored_ok C (o_common o) (o_at o) ->
  Forall nonempty (o_common o) -> Forall nonempty (o_at o) ->
  asdict C omit o = Ok d -> length (cl_fields C) = length (o_vals o) ->
  Forall2 (fun fw p => rebuilt omit (fst fw) (snd fw) p) (combine (cl_fields C) (o_vals o)) ps ->
  fromvalue C (JObj d) = cl_post C (MO None (o_common o) (o_at o) ps).
Proof.
  intros [Hn1 Hn2] S Ec Ea E L R. destruct o as [num common at_ vals]. cbn [o_common o_at o_vals] in *.
  apply nodupb_ok in Hn2. unfold Descr.asdict in E. cbn [o_common o_at o_vals] in E.
  destruct (asdict_attrs omit (cl_fields C) vals) as [attrs|] eqn:EA; [|discriminate]. cbn [bind] in E. injection E as E.
  rewrite (sorted_sort at_ (st_at_sorted _ _ _ S)), (sorted_sort common (st_common_sorted _ _ _ S)) in E.
  set (ats := map (fun kv : pystr * json => (lit "@" ++ fst kv, snd kv)) at_) in *.
  change (filter keep (ats ++ common ++ attrs) = d) in E. rewrite !filter_app in E.
  assert (E1 : filter keep ats = ats).
  { apply filter_all, Forall_forall. intros kv H. unfold ats in H. apply in_map_iff in H. destruct H as (x & <- & H).
    rewrite Forall_forall in Ea. specialize (Ea x H). unfold keep. cbn [snd]. unfold nonempty in Ea. rewrite Ea. apply orb_true_r. }
  assert (E2 : filter keep common = common).
  { apply filter_all, Forall_forall. intros kv H. rewrite Forall_forall in Ec. specialize (Ec kv H). unfold keep, nonempty in *.
    rewrite Ec. apply orb_true_r. }
  change (@app (pystr * json) (@filter (pystr * json) keep ats) (filter keep common ++ filter keep attrs) = d) in E.
  rewrite E1, E2 in E. set (attrs' := filter keep attrs) in *.
  assert (Ka : forall kv, In kv attrs' -> In (fst kv) (field_names C)).
  { intros kv H. apply filter_In in H. eapply asdict_attrs_keys; [exact EA|]. apply in_map_iff. exists kv; tauto. }
  assert (Pl : forall n, In n (field_names C) -> plain_name n).
  { intros n H. rewrite forallb_forall in Hn1. apply plain_nameb_ok, Hn1, H. }
  assert (Fa : Forall (fun kv : pystr * json => fate_of (all_names C) true (fst kv) = FAttr) attrs').
  { apply Forall_forall. intros kv H. apply fate_field; [|apply Pl, Ka, H]. unfold all_names. right; right. apply in_or_app. right. apply Ka, H. }
  assert (Fc : Forall (fun kv : pystr * json => fate_of (all_names C) true (fst kv) = FCommon) common).
  { eapply Forall_impl; [|apply (st_common _ _ _ S)]. intros kv (H1 & H2 & _). apply fate_common_iff. auto. }
  assert (Ft : Forall (fun kv : pystr * json => fate_of (all_names C) true (fst kv) = FAt) ats).
  { apply Forall_forall. intros kv H. unfold ats in H. apply in_map_iff in H. destruct H as (x & <- & H). apply fate_at_iff. eexists; reflexivity. }
  destruct (with_fate_all_at _ _ Ft) as (T1 & T2 & T3). destruct (with_fate_all_common _ _ Fc) as (C1 & C2 & C3).
  destruct (with_fate_all_attr _ _ Fa) as (A1 & A2 & A3).
  assert (X1 : expected_at (all_names C) true d = at_).
  { unfold expected_at. rewrite <- E, !with_fate_app, T1, C2, A3, !app_nil_r. unfold ats. rewrite map_map. rewrite <- map_id.
    apply map_ext_in. intros [k v] H. cbn [fst snd]. cbn [lit app tl].
    destruct (str_eq_dec _ _) as [D|D]; [|reflexivity]. injection D as ->. destruct (st_id _ _ _ S v H) as [->|(s & -> & _)]; reflexivity. }
  assert (X2 : expected_common tag_ok (all_names C) true d = common).
  { unfold expected_common. rewrite <- E, !with_fate_app, T2, C1, A2, !app_nil_r. cbn [app]. rewrite <- map_id.
    apply map_ext_in. intros [k v] H. cbn [fst snd]. pose proof (st_common _ _ _ S) as Q. rewrite Forall_forall in Q.
    destruct (Q _ H) as (_ & _ & _ & _ & Q'). cbn [snd] in Q'. rewrite Q'. reflexivity. }
  assert (X3 : expected_attrs (all_names C) true d = attrs').
  { unfold expected_attrs. rewrite <- E, !with_fate_app, T3, C3, A1. reflexivity. }
  assert (Nd : NoDup (map fst d)).
  { rewrite <- E, !map_app. apply NoDup_app_intro.
    - unfold ats. rewrite map_map. cbn [fst]. clear -S. pose proof (st_at_nodup _ _ _ S) as N. revert N. generalize at_. clear.
      intros l. induction l as [|x l IH]; intros N; [constructor|]. cbn [map] in *. apply NoDup_cons_iff in N. destruct N as [N1 N2].
      constructor; [|auto]. intros H. apply N1. apply in_map_iff in H. destruct H as (y & Ey & H). injection Ey as Ey.
      apply in_map_iff. exists y; auto.
    - apply NoDup_app_intro.
      + apply (st_common_nodup _ _ _ S).
      + apply NoDup_filter_fst. eapply asdict_attrs_nodup; eauto.
      + intros k H1 H2. apply in_map_iff in H1, H2. destruct H1 as (x & Ex & H1), H2 as (y & Ey & H2).
        rewrite Forall_forall in Fc, Fa. specialize (Fc x H1). specialize (Fa y H2). cbn beta in Fc, Fa. congruence.
    - intros k H1 H2. rewrite in_app_iff in H2. apply in_map_iff in H1. destruct H1 as (x & Ex & H1).
      rewrite Forall_forall in Ft. specialize (Ft x H1). cbn beta in Ft. destruct H2 as [H2|H2]; apply in_map_iff in H2; destruct H2 as (y & Ey & H2);
      rewrite Forall_forall in Fc, Fa; [specialize (Fc y H2)|specialize (Fa y H2)]; cbn beta in Fc, Fa; congruence. }
  assert (Wd : forall k v, In (k, v) d -> fate_of (all_names C) true k = FCommon -> wf_json v).
  { intros k v H F. rewrite <- E in H. rewrite !in_app_iff in H. rewrite Forall_forall in Ft, Fa. destruct H as [H|[H|H]].
    - specialize (Ft _ H). cbn [fst] in Ft. congruence.
    - pose proof (st_common _ _ _ S) as Q. rewrite Forall_forall in Q. apply (Q _ H).
    - specialize (Fa _ H). cbn [fst] in Fa. congruence. }
  assert (Acc : accepted (all_names C) (cl_name C) true d).
  { split.
    - intros r H. rewrite <- E, !in_app_iff in H. rewrite Forall_forall in Fc, Fa. destruct H as [H|[H|H]].
      + unfold ats in H. apply in_map_iff in H. destruct H as ([k v] & Ek & H). cbn [fst snd] in Ek. injection Ek as -> ->.
        destruct (st_id _ _ _ S _ H) as [D|(s & Es & Hs)]; [discriminate D|]. injection Es as <-. discriminate Hs.
      + specialize (Fc _ H). cbn [fst] in Fc. apply fate_common_iff in Fc. destruct Fc as [D _]. discriminate D.
      + specialize (Ka _ H). apply Pl in Ka. destruct Ka as [D _]. discriminate D.
    - intros v H. rewrite <- E, !in_app_iff in H. rewrite Forall_forall in Fc, Fa. destruct H as [H|[H|H]].
      + unfold ats in H. apply in_map_iff in H. destruct H as ([k v'] & Ek & H). cbn [fst snd] in Ek. injection Ek as -> ->.
        apply (st_type _ _ _ S _ H).
      + specialize (Fc _ H). cbn [fst] in Fc. apply fate_common_iff in Fc. destruct Fc as [D _]. discriminate D.
      + specialize (Ka _ H). apply Pl in Ka. destruct Ka as [D _]. discriminate D.
    - intros k v H F. rewrite <- E, !in_app_iff in H. rewrite Forall_forall in Ft, Fa. destruct H as [H|[H|H]].
      + specialize (Ft _ H). cbn [fst] in Ft. congruence.
      + pose proof (st_common _ _ _ S) as Q. rewrite Forall_forall in Q. apply (Q _ H).
      + specialize (Fa _ H). cbn [fst] in Fa. congruence.
    - intros k v H F. rewrite <- E, !in_app_iff in H. rewrite Forall_forall in Ft, Fc. destruct H as [H|[H|H]].
      + specialize (Ft _ H). cbn [fst] in Ft. congruence.
      + specialize (Fc _ H). cbn [fst] in Fc. congruence.
      + specialize (Ka _ H). apply Pl in Ka. cbn [fst] in Ka. destruct Ka as (_ & _ & D1 & D2). auto. }
  destruct (partition_complete' tag_ok _ _ _ d Nd Wd Acc) as [[po ws] P]. unfold Descr.fromvalue. rewrite P. cbn [bind fst].
  destruct (partition_sound' tag_ok _ _ _ d _ _ Nd Wd P) as (_ & -> & _). rewrite X1, X2, X3. unfold new_object. cbn [p_attrs p_common p_at].
  assert (K : forallb (fun kv : pystr * json => str_mem (fst kv) (field_names C)) attrs' = true).
  { apply forallb_forall. intros kv H. apply str_mem_In, Ka, H. }
  rewrite K. cbn [negb]. rewrite (rebuilt_values omit (cl_fields C) vals ps attrs Hn2 EA R L attrs' (fun _ _ => eq_refl)). cbn [bind].
  rewrite (sorted_sort at_ (st_at_sorted _ _ _ S)), (sorted_sort common (st_common_sorted _ _ _ S)). reflexivity.
Qed.
End Generic.
