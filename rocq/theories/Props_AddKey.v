(** C68: adding foreign keys to tables. *)
From Coq Require Import Lia.
From Verif Require Import PyStr Dsv Json Datatype Dialects Column Schema Table Files Meta MetaSpec Descr DescrSpec DescrProofs DescrProofs5 Load Cli Group GroupSpec GroupProofs4
  FromParts DescribeSpec AddKey AddKeySpec AddKeyProofs AddKeyProofs2 AddKeyProofs3.
Local Open Scope nat_scope.

Lemma combine_nth {A X} (n : A) (x : X) : forall i names l, NoDup names -> nth_error names i = Some n -> (In (n, x) (combine names l) <-> nth_error l i = Some x).
Proof.
  induction i as [|i IH]; intros [|k names] [|y l] D E; try discriminate E; try (split; [intros []|discriminate]); apply NoDup_cons_iff in D; destruct D as [D1 D2]; cbn [nth_error combine In] in *.
  - injection E as ->. split; [|intros H; injection H as ->; auto]. intros [H|H]; [congruence|]. contradiction D1. eapply in_combine_l, H.
  - rewrite <- (IH names l D2 E). split; [|auto]. intros [H|H]; [|exact H]. injection H as -> _. contradiction D1. eapply nth_error_In, E.
Qed.
Lemma attr_nth {B} (C : class B) o n i v : NoDup (field_names C) -> nth_error (field_names C) i = Some (lit n) -> (attr_is C o n v <-> nth_error (o_vals o) i = Some v).
Proof. intros D E. unfold attr_is. apply combine_nth; assumption. Qed.
Lemma nth_nth_error {A} (l : list A) i x d : nth i l d = x -> x <> d -> nth_error l i = Some x.
Proof. revert i. induction l as [|y l IH]; intros [|i] E N; cbn in *; try (contradiction N; congruence); [congruence|]. apply IH; assumption. Qed.

Section AddKey.
Context {B : Type} (W : world B).
(** schemas fetched are JSON *)
Hypothesis fetched : forall s j, w_fetch_schema W s = Some j -> wf_json j.
Hypothesis utf8 : w_codec W (lit "utf-8") = CKnown.
Lemma column_names_nodup : NoDup (field_names (Column_class W)).
Proof. apply nodupb_ok. vm_compute. reflexivity. Qed.
Lemma schema_at t s : schema_is W t s <-> nth_error (o_vals t) 14 = Some (MObj s).
Proof. apply attr_nth; [apply table_names_nodup|reflexivity]. Qed.
Lemma columns_at s cs : columns_are W s cs <-> nth_error (o_vals s) 11 = Some (MObjs cs).
Proof. apply attr_nth; [apply schema_names_nodup|reflexivity]. Qed.
Lemma keys_at s ks : keys_are W s ks <-> nth_error (o_vals s) 12 = Some (MFks ks).
Proof. apply attr_nth; [apply schema_names_nodup|reflexivity]. Qed.
Lemma name_at c n : attr_is (Column_class W) c "name" (MJ n) <-> nth_error (o_vals c) 11 = Some (MJ n).
Proof. apply attr_nth; [apply column_names_nodup|reflexivity]. Qed.
Lemma named_in (cs : list (mobj B)) x : existsb (fun n => py_eq (JStr x) n) (map col_name cs) = true <-> exists c, In c cs /\ attr_is (Column_class W) c "name" (MJ (JStr x)).
Proof.
  rewrite existsb_exists. split.
  - intros (n & Hn & E). apply in_map_iff in Hn. destruct Hn as (c & <- & Hc). exists c. split; [exact Hc|]. apply name_at.
    unfold col_name, col_attr in E. destruct (nth 11 (o_vals c) (MJ JNull)) as [j| | | | | | | | |] eqn:Ec; try discriminate E. destruct j; try discriminate E.
    cbn in E. apply str_eqb_eq in E. subst. apply (nth_nth_error _ _ _ (MJ JNull) Ec). discriminate.
  - intros (c & Hc & A). apply name_at in A. exists (JStr x). split; [|cbn; apply str_eqb_refl]. apply in_map_iff. exists c. split; [|exact Hc].
    unfold col_name, col_attr. rewrite (nth_error_nth _ _ _ A). reflexivity.
Qed.
Lemma given_items a l : given a l -> colref_items a = map JStr l.
Proof. intros []; reflexivity. Qed.
Lemma given_own a l : given a l -> own_list a = JList (map JStr l) /\ colref_list a = JList (map JStr l) /\ wf_carg a.
Proof.
  intros [x|m]; (split; [reflexivity|]); (split; [reflexivity|]); [exact I|]. apply MetaProofs.wf_list. intros x Hx. apply in_map_iff in Hx. destruct Hx as (y & <- & _). exact I.
Qed.
Lemma names_iff t s cs l : schema_is W t s -> columns_are W s cs ->
  (forallb (fun c => existsb (fun n => py_eq c n) (map col_name cs)) (map JStr l) = true <-> forall x, In x l -> names_column W t (JStr x)).
Proof.
  intros S C. rewrite forallb_forall. split.
  - intros H x Hx. specialize (H (JStr x) (in_map _ _ _ Hx)). apply named_in in H. destruct H as (c & Hc & A). exists s, cs, c. auto.
  - intros H y Hy. apply in_map_iff in Hy. destruct Hy as (x & <- & Hx). destruct (H x Hx) as (s' & cs' & c & S' & C' & Hc & A). apply named_in. exists c. split; [|exact A].
    apply schema_at in S, S'. rewrite S in S'. injection S' as ->. apply columns_at in C, C'. rewrite C in C'. injection C' as ->. exact Hc.
Qed.

(** A table that was read from metadata, given columns - one, or a list - and a resource: what succeeds adds exactly one foreign key, after the
    others, from columns of the table; the result is a table that could have been read from metadata, and that survives serialisation if the table does *)
Theorem c68_added d t t' cols l resource refcols r : wf_json d -> fromvalue W (Table_class W) d = Ok t -> given cols l -> given refcols r ->
  add_foreign_key t cols (JStr resource) refcols = Ok t' ->
  (forall x, In x l -> names_column W t (JStr x)) /\ with_key W t (key_to l resource r) t' /\
  (exists d', wf_json d' /\ fromvalue W (Table_class W) d' = Ok t') /\
  (table_survives W t -> forall omit a, asdict (Table_class W) omit t = Ok a ->
    table_survives W t' /\ exists a', asdict (Table_class W) omit t' = Ok a' /\ fromvalue W (Table_class W) (JObj a') = Ok t').
Proof.
  intros Wd H G1 G2 A. destruct (given_own _ _ G1) as (O1 & _ & W1), (given_own _ _ G2) as (_ & O2 & W2).
  destruct (added_read W fetched d t t' cols (JStr resource) refcols W1 I W2 Wd H A) as (d' & Wd' & H').
  pose proof (added_survives W fetched d t t' _ _ _ Wd H A) as Sv. pose proof (fun omit a => added_serialised W fetched omit d t t' _ _ _ a Wd H A) as Ser.
  destruct (add_inv _ _ _ _ _ A) as (s & cs & ks & k & Es & Ec & Ek & Nm & Hk & ->).
  destruct (table_parts W d t Wd H) as (common & at_ & at2 & vals & _ & _ & _ & _ & Lt & _).
  destruct (table_schema_of W fetched d t s Wd H Es) as (ds & Wds & Hs). destruct (schema_parts W ds s Wds Hs) as (common' & at' & vals' & _ & _ & _ & _ & Ls & _).
  assert (S : schema_is W t s) by (apply schema_at, (nth_nth_error _ _ _ _ Es); discriminate).
  assert (C : columns_are W s cs) by (apply columns_at, (nth_nth_error _ _ _ _ Ec); discriminate).
  assert (K : keys_are W s ks) by (apply keys_at, (nth_nth_error _ _ _ _ Ek); discriminate).
  assert (Ekey : k = key_to l resource r).
  { unfold key_dict in Hk. rewrite O1, O2 in Hk. cbn in Hk. apply Ok_inj in Hk. symmetry. exact Hk. }
  subst k. split; [apply (names_iff t s cs l S C); rewrite <- (given_items _ _ G1); exact Nm|]. split.
  - destruct (alike_put (Table_class W) "tableSchema" 14 (MObj (put_val 12 (MFks (ks ++ [key_to l resource r])) s)) t (table_names_nodup W)) as (A1 & A2); [rewrite Lt; reflexivity|reflexivity|].
    destruct (alike_put (Schema_class W) "foreignKeys" 12 (MFks (ks ++ [key_to l resource r])) s (schema_names_nodup W)) as (A3 & A4); [rewrite Ls; reflexivity|reflexivity|].
    eexists s, _, ks. split; [exact S|]. split; [exact A2|]. split; [exact A1|]. split; [exact K|]. split; [exact A4|exact A3].
  - split; [eauto|]. intros V omit a Ea. specialize (Sv V). split; [exact Sv|]. destruct (Ser omit a Ea) as (a' & Ea'). exists a'. split; [exact Ea'|].
    eapply (table_rt W utf8 fetched omit (JObj d')); [exact Wd'|exact H'|exact Sv|exact Ea'].
Qed.
(** It succeeds exactly if these are names of columns, and else it is a ValueError *)
Theorem c68_accepted d t s cols l resource refcols r : wf_json d -> fromvalue W (Table_class W) d = Ok t -> schema_is W t s -> given cols l -> given refcols r ->
  ((forall x, In x l -> names_column W t (JStr x)) -> exists t', add_foreign_key t cols (JStr resource) refcols = Ok t') /\
  (~ (forall x, In x l -> names_column W t (JStr x)) -> add_foreign_key t cols (JStr resource) refcols = Err ValueError).
Proof.
  intros Wd H S G1 G2. destruct (given_own _ _ G1) as (O1 & _ & W1), (given_own _ _ G2) as (_ & O2 & W2).
  pose proof (proj1 (schema_at _ _) S) as Es. apply nth_error_nth with (d := MJ JNull) in Es.
  destruct (table_schema_of W fetched d t s Wd H Es) as (ds & Wds & Hs). destruct (schema_parts W ds s Wds Hs) as (common' & at' & vals' & _ & _ & F' & L' & Ls & (cs & Ec) & E12 & _).
  assert (Ck : converted (@fkeys_field B) (nth 12 vals' (MJ JNull))).
  { apply (F2_nth converted (@fkeys_field B) (MJ JNull) 12 (cl_fields (Schema_class W)) vals' F'). rewrite L'. lia. }
  rewrite <- E12 in Ck. destruct Ck as (j & _ & Cj). cbn [fkeys_field fd_conv] in Cj. destruct (conv_fkeys j) as [ks|]; [|discriminate Cj]. cbn [bind] in Cj. apply Ok_inj in Cj.
  assert (C : columns_are W s cs) by (apply columns_at, (nth_nth_error _ _ _ _ Ec); discriminate).
  pose proof (names_iff t s cs l S C) as Nm. unfold add_foreign_key. rewrite Es, Ec, <- Cj, (given_items _ _ G1), O1, O2.
  destruct (forallb _ (map JStr l)) eqn:F.
  - split; [intros _; eexists; reflexivity|]. intros X. contradiction X. apply Nm. reflexivity.
  - split; [|reflexivity]. intros X. apply Nm in X. discriminate X.
Qed.

(** A table whose schema could not be fetched gets no key *)
Theorem c68_unfetched t cols resource refcols : (forall s, ~ schema_is W t s) -> add_foreign_key t cols resource refcols = Err AttributeError.
Proof.
  intros N. unfold add_foreign_key. destruct (nth 14 (o_vals t) (MJ JNull)) as [| | | | | | | |s|] eqn:E; try reflexivity. contradiction (N s). apply schema_at, (nth_nth_error _ _ _ _ E). discriminate.
Qed.
Lemma mapM_snoc {A X} (f : A -> res X) l x ys y : mapM f l = Ok ys -> f x = Ok y -> mapM f (l ++ [x]) = Ok (ys ++ [y]).
Proof.
  revert ys. induction l as [|a l IH]; intros ys H E; cbn [mapM app] in *.
  - apply Ok_inj in H. subst ys. rewrite E. reflexivity.
  - destruct (f a) as [b|]; [|discriminate H]. cbn [bind] in *. destruct (mapM f l) as [bs|]; [|discriminate H]. cbn [bind] in H. apply Ok_inj in H. subst ys.
    rewrite (IH bs eq_refl E). reflexivity.
Qed.
Lemma strs_all l : all_str (JList (map JStr l)) = Ok l.
Proof. cbn [all_str]. induction l as [|x l IH]; [reflexivity|]. cbn [map mapM bind]. rewrite IH. reflexivity. Qed.
Lemma key_loads l resource r : load_fkey (key_to l resource r) = Ok {| fk_cols := l; fk_resource := Some resource; fk_schemaReference := None; fk_refcols := r |}.
Proof. unfold load_fkey, key_to. cbn [k_cols k_refcols]. rewrite !strs_all. reflexivity. Qed.
Lemma schema_loads {V} (dtype_of : mobj B -> dtype V) csvw (s : mobj B) ks k fk S0 : length (o_vals s) = 15 -> nth 12 (o_vals s) (MJ JNull) = MFks ks -> load_fkey k = Ok fk ->
  load_schema dtype_of csvw s = Ok S0 -> load_schema dtype_of csvw (put_val 12 (MFks (ks ++ [k])) s) =
    Ok {| s_desc := s_desc S0; s_columns := s_columns S0; s_primaryKey := s_primaryKey S0; s_foreignKeys := s_foreignKeys S0 ++ [fk] |}.
Proof.
  intros L E K H. destruct s as [n c a vs]. cbn [o_vals] in *. do 15 (destruct vs as [|? vs]; [discriminate L|]). destruct vs; [|discriminate L].
  cbn [nth] in E. subst. unfold load_schema, put_val, put in *. cbn [o_vals firstn skipn app] in *. unfold load_desc in *. cbn [o_vals] in *.
  match type of H with match ?m with _ => _ end = _ => destruct m; try discriminate H end.
  match type of H with match ?m with _ => _ end = _ => destruct m as [pk| | | | | | | | |]; try discriminate H end.
  match type of H with bind ?m _ = _ => destruct m as [d|]; [|discriminate H]; cbn [bind] in * end.
  match type of H with bind ?m _ = _ => destruct m as [cs|]; [|discriminate H]; cbn [bind] in * end.
  match type of H with bind ?m _ = _ => destruct m as [pk'|]; [|discriminate H]; cbn [bind] in * end.
  destruct (mapM load_fkey ks) as [fks|] eqn:M; [|discriminate H]. cbn [bind] in H. apply Ok_inj in H. subst S0.
  rewrite (mapM_snoc _ _ _ _ _ M K). reflexivity.
Qed.
(** Reading the table is as before; its keys are those it had, and the new one *)
Theorem c68_loaded {V} (dtype_of : mobj B -> dtype V) d t t' cols l resource refcols r csvw group kt : wf_json d -> fromvalue W (Table_class W) d = Ok t -> given cols l -> given refcols r ->
  add_foreign_key t cols (JStr resource) refcols = Ok t' -> load_keyed dtype_of csvw group t = Ok kt ->
  load_keyed dtype_of csvw group t' = Ok {| k_table := k_table kt; k_pk := k_pk kt;
    k_fks := k_fks kt ++ [{| fk_cols := l; fk_resource := Some resource; fk_schemaReference := None; fk_refcols := r |}] |}.
Proof.
  intros Wd H G1 G2 A L. destruct (given_own _ _ G1) as (O1 & _ & W1), (given_own _ _ G2) as (_ & O2 & W2).
  destruct (add_inv _ _ _ _ _ A) as (s & cs & ks & k & Es & Ec & Ek & Nm & Hk & ->).
  destruct (table_parts W d t Wd H) as (common & at_ & at2 & vals & _ & _ & _ & _ & Lt & _).
  destruct (table_schema_of W fetched d t s Wd H Es) as (ds & Wds & Hs). destruct (schema_parts W ds s Wds Hs) as (common' & at' & vals' & _ & _ & _ & _ & Ls & _).
  assert (Ekey : k = key_to l resource r).
  { unfold key_dict in Hk. rewrite O1, O2 in Hk. cbn in Hk. apply Ok_inj in Hk. symmetry. exact Hk. }
  subst k. pose proof (fun S0 => schema_loads dtype_of csvw s ks _ _ S0 Ls Ek (key_loads l resource r)) as Sl.
  destruct t as [num com at_t vs]. cbn [o_vals] in *.
  do 18 (destruct vs as [|? vs]; [discriminate Lt|]). destruct vs; [|discriminate Lt]. cbn [nth] in Es. subst.
  set (s2 := put_val 12 _ s) in *. unfold load_keyed, load_table, table_schema in *. unfold put_val, put in *. cbn [o_vals o_at o_num o_common nth firstn skipn app] in *.
  unfold load_desc in *. cbn [o_vals] in *.
  destruct (load_schema dtype_of csvw s) as [S0|] eqn:Hl; [|discriminate L]. cbn [bind] in *. rewrite (Sl S0 eq_refl). cbn [bind].
  unfold tcols_of in *. cbn [s_desc s_columns] in *.
  match type of L with bind ?m _ = _ => destruct m as [ft|] eqn:Em; [|discriminate L] end. cbn [bind] in L |- *. apply Ok_inj in L. subst kt. cbn [k_table k_pk k_fks].
  reflexivity.
Qed.
End AddKey.
(** A group's references are as before and the new key's are, too *)
Theorem c68_checked {V} (veq : V -> V -> bool) (strict log : bool) pre (g : @gtable V) k post : TableSpec.equivalence veq -> fk_schemaReference k = None ->
  (snd (check_referential_integrity veq strict log (pre ++ add_key k g :: post)) = Ok true <->
   snd (check_referential_integrity veq strict log (pre ++ g :: post)) = Ok true /\
   exists r target, fk_resource k = Some r /\ last_named (pre ++ g :: post) r target /\ key_holds veq strict log g k target).
Proof. intros Q E. rewrite (integrity_iff veq Q strict log (pre ++ add_key k g :: post)), (integrity_iff veq Q strict log (pre ++ g :: post)). apply one_key_more, E. Qed.
Print Assumptions c68_added.
Print Assumptions c68_accepted.
Print Assumptions c68_unfetched.
Print Assumptions c68_loaded.
Print Assumptions c68_checked.

(** *** Examples *)
From Verif Require Import Props_Descr.
Definition t68 : mobj pystr := Eval vm_compute in get (fromvalue w0 (Table_class w0) table1) nobj.
Definition s68 : mobj pystr := Eval vm_compute in match nth 14 (o_vals t68) (MJ JNull) with MObj s => s | _ => nobj end.
Definition key68 : fkobj := key_to [lit "ID"; lit "ID"] (lit "c.csv") [lit "x"; lit "y"].
Definition t68' : mobj pystr := Eval vm_compute in get (add_foreign_key t68 (CJson (JList [JStr (lit "ID"); JStr (lit "ID")])) (JStr (lit "c.csv")) (CJson (JList [JStr (lit "x"); JStr (lit "y")]))) nobj.
Lemma schema68 : schema_is w0 t68 s68. Proof. apply schema_at. reflexivity. Qed.
Lemma table1_wf : wf_json table1. Proof. unfold table1, schema1, col1, col2. wf. Qed.
Lemma t68_survives : table_survives w0 t68. Proof. unfold t68. obj. Qed.
Lemma t68_read : fromvalue w0 (Table_class w0) table1 = Ok t68. Proof. vm_compute. reflexivity. Qed.
Lemma t68_id : names_column w0 t68 (JStr (lit "ID")).
Proof.
  pose (cs := match nth 11 (o_vals s68) (MJ JNull) with MObjs cs => cs | _ => [] end). exists s68, cs, (hd nobj cs). split; [exact schema68|]. split; [apply columns_at; reflexivity|].
  split; [left; reflexivity|]. apply name_at. reflexivity.
Qed.
Example c68_nonvacuous : wf_json table1 /\ fromvalue w0 (Table_class w0) table1 = Ok t68 /\ table_survives w0 t68 /\ schema_is w0 t68 s68 /\
  given (CJson (JList [JStr (lit "ID"); JStr (lit "ID")])) [lit "ID"; lit "ID"] /\ (forall x, In x [lit "ID"; lit "ID"] -> names_column w0 t68 (JStr x)) /\
  add_foreign_key t68 (CJson (JList [JStr (lit "ID"); JStr (lit "ID")])) (JStr (lit "c.csv")) (CJson (JList [JStr (lit "x"); JStr (lit "y")])) = Ok t68' /\
  with_key w0 t68 key68 t68' /\ table_survives w0 t68'.
Proof.
  assert (G1 : given (CJson (JList [JStr (lit "ID"); JStr (lit "ID")])) [lit "ID"; lit "ID"]) by (apply (gv_list [lit "ID"; lit "ID"])).
  assert (G2 : given (CJson (JList [JStr (lit "x"); JStr (lit "y")])) [lit "x"; lit "y"]) by (apply (gv_list [lit "x"; lit "y"])).
  assert (A : add_foreign_key t68 (CJson (JList [JStr (lit "ID"); JStr (lit "ID")])) (JStr (lit "c.csv")) (CJson (JList [JStr (lit "x"); JStr (lit "y")])) = Ok t68') by (vm_compute; reflexivity).
  destruct (c68_added w0 w0_fetch w0_utf8 table1 t68 t68' _ _ _ _ _ table1_wf t68_read G1 G2 A) as (_ & K & _ & S).
  assert (D : exists a, asdict (Table_class w0) true t68 = Ok a).
  { assert (X : match asdict (Table_class w0) true t68 with Ok _ => true | _ => false end = true) by (vm_compute; reflexivity). destruct (asdict (Table_class w0) true t68); [eauto|discriminate X]. }
  destruct D as (a & D). split; [exact table1_wf|]. split; [exact t68_read|]. split; [exact t68_survives|]. split; [exact schema68|]. split; [exact G1|].
  split; [intros x [<-|[<-|[]]]; exact t68_id|]. split; [exact A|]. split; [exact K|]. apply (S t68_survives true a D).
Qed.
(** a title is no name, and nor is the name that reading the column would get *)
Example c68_titles_unknown : add_foreign_key t68 (CJson (JStr (lit "T"))) (JStr (lit "c.csv")) (CJson (JStr (lit "x"))) = Err ValueError /\
  add_foreign_key t68 (CJson (JStr (lit "_col.2"))) (JStr (lit "c.csv")) (CJson (JStr (lit "x"))) = Err ValueError.
Proof. split; vm_compute; reflexivity. Qed.
(** The docstring's "column reference" may be a tuple, too, says the code: of a tuple of names of columns - even of a single one - comes a key whose
    only column is a list, which names nothing *)
Theorem c68_tuple_refuted : exists t', add_foreign_key t68 (CTuple [JStr (lit "ID")]) (JStr (lit "c.csv")) (CJson (JStr (lit "x"))) = Ok t' /\
  exists s' ks k, schema_is w0 t' s' /\ keys_are w0 s' (ks ++ [k]) /\ k_cols k = JList [JList [JStr (lit "ID")]] /\
    forall n, k_cols k = JList [n] -> ~ names_column w0 t' n.
Proof.
  pose (t' := get (add_foreign_key t68 (CTuple [JStr (lit "ID")]) (JStr (lit "c.csv")) (CJson (JStr (lit "x")))) nobj). exists t'. split; [vm_compute; reflexivity|].
  pose (s' := match nth 14 (o_vals t') (MJ JNull) with MObj s => s | _ => nobj end).
  pose (ks := match nth 12 (o_vals s') (MJ JNull) with MFks l => l | _ => [] end).
  pose (cs := match nth 11 (o_vals s') (MJ JNull) with MObjs l => l | _ => [] end).
  assert (S : schema_is w0 t' s') by (apply schema_at; vm_compute; reflexivity).
  exists s', (removelast ks), (last ks {| k_cols := JNull; k_resource := None; k_schemaReference := None; k_refcols := JNull |}).
  split; [exact S|]. split; [apply keys_at; vm_compute; reflexivity|]. split; [vm_compute; reflexivity|].
  intros n E (s2 & cs2 & c & S2 & C2 & Hc & A). assert (En : n = JList [JStr (lit "ID")]) by (vm_compute in E; injection E as <-; reflexivity). subst n.
  assert (Es : s2 = s') by (apply schema_at in S, S2; congruence). subst s2.
  assert (C : columns_are w0 s' cs) by (apply columns_at; vm_compute; reflexivity). assert (Ec : cs2 = cs) by (apply columns_at in C, C2; congruence). subst cs2.
  apply name_at in A. clear -Hc A. vm_compute in Hc. destruct Hc as [<-|[<-|[]]]; vm_compute in A; discriminate A.
Qed.
(** None is the name of a column that has none, and is accepted: the key is from no column *)
Theorem c68_none_refuted : exists t', add_foreign_key t68 (CJson JNull) (JStr (lit "c.csv")) (CJson (JStr (lit "x"))) = Ok t' /\
  exists s' ks k, schema_is w0 t' s' /\ keys_are w0 s' (ks ++ [k]) /\ k_cols k = JList [JNull].
Proof.
  pose (t' := get (add_foreign_key t68 (CJson JNull) (JStr (lit "c.csv")) (CJson (JStr (lit "x")))) nobj). exists t'. split; [vm_compute; reflexivity|].
  pose (s' := match nth 14 (o_vals t') (MJ JNull) with MObj s => s | _ => nobj end).
  pose (ks := match nth 12 (o_vals s') (MJ JNull) with MFks l => l | _ => [] end).
  exists s', (removelast ks), (last ks {| k_cols := JNull; k_resource := None; k_schemaReference := None; k_refcols := JNull |}).
  split; [apply schema_at; vm_compute; reflexivity|]. split; [apply keys_at; vm_compute; reflexivity|vm_compute; reflexivity].
Qed.
(** a table with the URL of a schema that cannot be fetched *)
Example c68_unfetched_nonvacuous : exists t, fromvalue w0 (Table_class w0) (JObj [(lit "url", JStr (lit "a.csv")); (lit "tableSchema", JStr (lit "s.json"))]) = Ok t /\ forall s, ~ schema_is w0 t s.
Proof.
  pose (t := get (fromvalue w0 (Table_class w0) (JObj [(lit "url", JStr (lit "a.csv")); (lit "tableSchema", JStr (lit "s.json"))])) nobj). exists t. split; [vm_compute; reflexivity|].
  intros s S. apply schema_at in S. vm_compute in S. discriminate S.
Qed.
