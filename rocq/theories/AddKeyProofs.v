(** A table with a foreign key added is one that can be read (C68). *)
From Coq Require Import Permutation Lia.
From Verif Require Import PyStr Dsv Json Dialects NatLang Datatype Meta MetaSpec MetaProofs MetaProofs2 MetaProofs3 DsvProofs4 Descr DescrSpec DescrProofs DescrProofs2 DescrProofs3 DescrProofs4 DescrProofs5
  FromParts DescribeSpec AddKey AddKeySpec.
Local Open Scope nat_scope.

(** *** Replacing one value *)
Lemma put_nth {A} (v d : A) : forall n l, n < length l -> nth n (put n v l) d = v.
Proof. unfold put. induction n as [|n IH]; intros [|x l] L; cbn in L; try lia; [reflexivity|]. cbn. apply IH. lia. Qed.
Lemma put_other {A} (v d : A) m : forall n l, n < length l -> m <> n -> nth m (put n v l) d = nth m l d.
Proof.
  unfold put. intros n. revert m. induction n as [|n IH]; intros m [|x l] L H; cbn in L; try lia.
  - destruct m; [lia|reflexivity].
  - destruct m; [reflexivity|]. cbn. apply IH; lia.
Qed.
Lemma put_length {A} (v : A) : forall n l, n < length l -> length (put n v l) = length l.
Proof. unfold put. induction n as [|n IH]; intros [|x l] L; cbn in L; try lia; [reflexivity|]. cbn. f_equal. apply IH. lia. Qed.
Lemma put_F2 {A X} (R : A -> X -> Prop) (d : A) v : forall n fs l, Forall2 R fs l -> n < length l -> R (nth n fs d) v -> Forall2 R fs (put n v l).
Proof.
  unfold put. induction n as [|n IH]; intros fs l F L H; destruct F as [|f x fs l Rx F]; cbn in L; try lia; cbn in *.
  - constructor; assumption.
  - constructor; [exact Rx|]. apply IH; [exact F|lia|exact H].
Qed.
Lemma put_attr {A} (n : pystr) (v : A) : forall i names l, NoDup names -> length names = length l -> nth_error names i = Some n ->
  forall m x, In (m, x) (combine names (put i v l)) <-> (m = n /\ x = v \/ m <> n /\ In (m, x) (combine names l)).
Proof.
  unfold put. induction i as [|i IH]; intros [|k names] [|y l] D L E m x; try discriminate E; try discriminate L; apply NoDup_cons_iff in D; destruct D as [D1 D2]; injection L as L.
  - cbn in E. injection E as ->. cbn [firstn skipn app combine In]. split.
    + intros [X|X]; [injection X as <- <-; left; auto|]. right. split; [|right; exact X]. intros ->. apply D1. eapply in_combine_l, X.
    + intros [[-> ->]|[Nm [X|X]]]; [left; reflexivity|injection X as <- <-; contradiction Nm; reflexivity|right; exact X].
  - cbn [nth_error] in E. specialize (IH names l D2 L E m x). change (firstn (S i) (y :: l)) with (y :: firstn i l). change (skipn (S (S i)) (y :: l)) with (skipn (S i) l).
    cbn [combine app In]. rewrite IH. assert (Nk : k <> n) by (intros ->; apply D1; eapply nth_error_In, E). split.
    + intros [X|[X|[X1 X2]]]; [injection X as <- <-; right; auto|left; exact X|right; auto].
    + intros [X|[X1 [X2|X2]]]; [right; left; exact X|left; exact X2|right; right; auto].
Qed.

Lemma lit_inj : forall a b : String.string, lit a = lit b -> a = b.
Proof.
  induction a as [|x a IH]; intros [|y b] H; try discriminate H; [reflexivity|]. cbn in H. injection H as H1 H2. f_equal; [|apply IH, H2].
  apply (f_equal Ascii.ascii_of_N) in H1. rewrite !Ascii.ascii_N_embedding in H1. exact H1.
Qed.
Section AddKey.
Context {B : Type} (W : world B).
Notation mobj := (mobj B).
Lemma alike_put (C : class B) n i v (o : mobj) : NoDup (field_names C) -> length (field_names C) = length (o_vals o) -> nth_error (field_names C) i = Some (lit n) ->
  alike_but C n o (put_val i v o) /\ attr_is C (put_val i v o) n v.
Proof.
  intros D L E. split; [constructor; try reflexivity|].
  - intros m x Nm. unfold attr_is, put_val. cbn [o_vals]. rewrite (put_attr (lit n) v i _ _ D L E). split; [|intros [[X _]|[_ X]]; [|exact X]].
    + intros X. right. split; [|exact X]. intros Em. apply Nm, lit_inj, Em.
    + apply lit_inj in X. contradiction.
  - unfold attr_is, put_val. cbn [o_vals]. apply (put_attr (lit n) v i _ _ D L E). auto.
Qed.

(** *** What tables and schemas are made of *)
Hypothesis fetched : forall s j, w_fetch_schema W s = Some j -> wf_json j.
Lemma table_wf f : In f (cl_fields (Table_class W)) -> wf_json (fd_default f).
Proof.
  revert f. apply Forall_forall. change (cl_fields (Table_class W)) with (description_fields W ++ skipn 11 (cl_fields (Table_class W))).
  apply Forall_app. split; [apply description_wf|]. cbn. repeat (apply Forall_cons; [cbn; tauto|]); apply Forall_nil.
Qed.
Lemma table_parts d (t : mobj) : wf_json d -> fromvalue W (Table_class W) d = Ok t ->
  exists common at_ at2 vals, stored_ok W (Table_class W) common at_ /\ (forall k v, In (k, v) at_ -> wf_json v) /\ Forall2 converted (cl_fields (Table_class W)) vals /\
    length vals = 18 /\ length (o_vals t) = 18 /\ o_num t = None /\ o_common t = common /\ o_at t = at2 /\ nth 14 (o_vals t) (MJ JNull) = nth 14 vals (MJ JNull) /\
    forall v, cl_post (Table_class W) (MO None common at_ (put 14 v vals)) = Ok (put_val 14 v t).
Proof.
  intros Wd H. destruct (fromvalue_parts W _ _ _ Wd table_wf H) as (common & at_ & vals & St & Wa & F & P).
  pose proof (Forall2_length _ _ _ F) as L. cbn in L. do 18 (destruct vals as [|? vals]; [discriminate L|]). destruct vals; [|discriminate L].
  exists common, at_, (o_at t). eexists. split; [exact St|]. split; [exact Wa|]. split; [exact F|]. split; [reflexivity|].
  cbn [Table_class cl_post] in P |- *.
  match type of P with context [MO None common at_ [?a0; ?a1; ?a2; ?a3; ?a4; ?a5; ?a6; ?a7; ?a8; ?a9; ?a10; ?a11; ?a12; ?a13; ?a14; ?a15; ?a16; ?a17]] =>
    change [a0; a1; a2; a3; a4; a5; a6; a7; a8; a9; a10; a11; a12; a13; a14; a15; a16; a17] with ([a0; a1; a2; a3; a4; a5; a6; a7; a8; a9; a10] ++ a11 :: [a12; a13; a14; a15; a16; a17]) in P;
    rewrite (tablelike_post_eq W None common at_ [a0; a1; a2; a3; a4; a5; a6; a7; a8; a9; a10] a11 _ eq_refl) in P;
    assert (X : forall v, tablelike_post W (MO None common at_ (put 14 v [a0; a1; a2; a3; a4; a5; a6; a7; a8; a9; a10; a11; a12; a13; a14; a15; a16; a17])) =
      tablelike_post W (MO None common at_ ([a0; a1; a2; a3; a4; a5; a6; a7; a8; a9; a10] ++ a11 :: [a12; a13; v; a15; a16; a17]))) by reflexivity
  end.
  destruct (match m10 with MJ (JStr _) => _ | _ => _ end) as [dl|] eqn:Ed; [|discriminate P]. cbn [bind] in P. destruct (at_post W at_) as [at2|] eqn:Ea; [|discriminate P].
  cbn [bind o_vals app nth] in P. destruct m15; try discriminate P. apply Ok_inj in P. subst t.
  split; [reflexivity|]. split; [reflexivity|]. split; [reflexivity|]. split; [reflexivity|]. split; [reflexivity|].
  intros v. rewrite X, tablelike_post_eq by reflexivity. rewrite Ed. cbn [bind]. rewrite Ea. cbn [bind]. reflexivity.
Qed.
Lemma schema_parts d (s : mobj) : wf_json d -> fromvalue W (Schema_class W) d = Ok s ->
  exists common at_ vals, stored_ok W (Schema_class W) common at_ /\ (forall k v, In (k, v) at_ -> wf_json v) /\ Forall2 converted (cl_fields (Schema_class W)) vals /\
    length vals = 15 /\ length (o_vals s) = 15 /\ (exists cs, nth 11 (o_vals s) (MJ JNull) = MObjs cs) /\ nth 12 (o_vals s) (MJ JNull) = nth 12 vals (MJ JNull) /\
    forall v, cl_post (Schema_class W) (MO None common at_ (put 12 v vals)) = Ok (put_val 12 v s).
Proof.
  intros Wd H. destruct (fromvalue_parts W _ _ _ Wd (schema_wf W) H) as (common & at_ & vals & St & Wa & F & P).
  pose proof (Forall2_length _ _ _ F) as L. cbn in L. do 15 (destruct vals as [|? vals]; [discriminate L|]). destruct vals; [|discriminate L].
  exists common, at_. eexists. split; [exact St|]. split; [exact Wa|]. split; [exact F|]. split; [reflexivity|].
  cbn [Schema_class cl_post] in P |- *. unfold schema_post in P |- *. cbn [o_vals o_num o_common o_at skipn firstn app] in P.
  destruct m10 as [| | | | | | | | |cs]; try discriminate P. destruct m12 as [pk| | | | | | | | |]; try discriminate P.
  destruct (cols_ok false [] cs) as [[]|] eqn:Ec; [|discriminate P]. cbn [bind] in P. destruct (pk_ok _ _ pk) as [pk'|] eqn:Ek; [|discriminate P]. cbn [bind] in P.
  apply Ok_inj in P. subst s. split; [reflexivity|]. split; [eexists; reflexivity|]. split; [reflexivity|].
  intros v. unfold put. cbn [o_vals o_num o_common o_at skipn firstn app]. rewrite Ec. cbn [bind]. rewrite Ek. reflexivity.
Qed.
Lemma schema_from j (s : mobj) : wf_json j -> schema_fromvalue W j = Ok (MObj s) -> exists d, wf_json d /\ fromvalue W (Schema_class W) d = Ok s.
Proof.
  intros Wj H. unfold schema_fromvalue in H.
  assert (G : forall w, wf_json w -> (o <- fromvalue W (Schema_class W) (match w with JObj _ => w | _ => JObj [] end) ;; Ok (MObj o)) = Ok (MObj s) ->
    exists d, wf_json d /\ fromvalue W (Schema_class W) d = Ok s).
  { intros w Ww X. destruct (fromvalue W (Schema_class W) _) as [o|] eqn:E; [|discriminate X]. cbn [bind] in X. apply Ok_inj in X. injection X as ->.
    eexists. split; [|exact E]. destruct w; try exact Ww; apply wf_obj; split; try constructor; intros ? ? []. }
  destruct (match j with JStr s => match w_fetch_schema W s with Some j => Some j | None => None end | _ => Some j end) as [w|] eqn:E; [|discriminate H].
  apply (G w); [|exact H]. destruct j as [| | | |u| |]; try (injection E as <-; exact Wj). destruct (w_fetch_schema W u) eqn:Eu; [|discriminate E]. injection E as <-. eapply fetched, Eu.
Qed.
(** the foreign keys of a schema, and one more *)
Lemma one_more ks k kd : converted (@fkeys_field B) (MFks ks) -> wf_json (JObj kd) -> fkey_of kd = Ok k -> converted (@fkeys_field B) (MFks (ks ++ [k])).
Proof.
  intros (j & Wj & E) Wk Ek. cbn [fkeys_field fd_conv] in E. destruct (conv_fkeys j) as [l|] eqn:C; [|discriminate E]. cbn [bind] in E. apply Ok_inj in E. injection E as ->.
  assert (One : conv_fkeys (JList [JObj kd]) = Ok [k]) by (cbn; rewrite Ek; reflexivity).
  destruct j as [| | | | |l|kvs]; try discriminate C.
  - apply Ok_inj in C. subst ks. exists (JList [JObj kd]). split; [apply wf_list; intros x [<-|[]]; exact Wk|]. cbn [fkeys_field fd_conv]. rewrite One. reflexivity.
  - exists (JList (l ++ [JObj kd])). split.
    { apply wf_list. intros x Hx. apply in_app_iff in Hx. destruct Hx as [Hx|[<-|[]]]; [apply (proj1 (wf_list _) Wj), Hx|exact Wk]. }
    cbn [fkeys_field fd_conv conv_fkeys] in C |- *. unfold dict_items in *. rewrite flat_map_app. cbn [flat_map conv_dict app]. rewrite flat_map_app. cbn [flat_map app].
    assert (Ma : forall a b (x : list fkobj) y, mapM fkey_of a = Ok x -> mapM fkey_of b = Ok y -> mapM fkey_of (a ++ b) = Ok (x ++ y)).
    { induction a as [|c a IH]; intros b x y X Y; cbn [mapM app] in *; [apply Ok_inj in X; subst x; exact Y|]. destruct (fkey_of c); [|discriminate X]. cbn [bind] in *.
      destruct (mapM fkey_of a) as [xs|] eqn:Ex; [|discriminate X]. cbn [bind] in X. apply Ok_inj in X. subst x. rewrite (IH b xs y eq_refl Y). reflexivity. }
    rewrite (Ma _ [kd] ks [k] C); [reflexivity|]. cbn [mapM]. rewrite Ek. reflexivity.
  - apply Ok_inj in C. subst ks. exists (JList [JObj kd]). split; [apply wf_list; intros x [<-|[]]; exact Wk|]. cbn [fkeys_field fd_conv]. rewrite One. reflexivity.
Qed.
Lemma table_names_nodup : NoDup (field_names (Table_class W)).
Proof. apply nodupb_ok. vm_compute. reflexivity. Qed.
Lemma schema_names_nodup : NoDup (field_names (Schema_class W)).
Proof. apply nodupb_ok. vm_compute. reflexivity. Qed.
End AddKey.
