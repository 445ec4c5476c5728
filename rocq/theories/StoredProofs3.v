(** C72: a group that was written. *)
From Verif Require Import PyStr PyCsv Dsv DsvSpec DsvProofs4 Json NatLang Column Schema Table TableSpec TableProofs5 TableProofs6 Zip ZipSpec ZipProofs Locate LocateSpec LocateProofs QuietSpec
  Files FilesSpec FilesProofs FilesProofs2 FilesProofs3 Group GroupSpec Props_Zip StoredSpec StoredProofs1 StoredProofs2.
Section W.
Context {V : Type} (veq : V -> V -> bool) (Hveq : equivalence veq) (sc : scalars V) (expand : pystr -> dict V -> res pystr) (Hx : expands expand) (env : fenv) (pv : pyver) (lim : N).
Lemma named_of (g : fgroup V) t : NoDup (map t_url (gr_tables g)) -> In t (gr_tables g) -> named g (t_url t) t.
Proof.
  intros N I. apply in_split in I. destruct I as (pre & post & E). exists pre, post. split; [exact E|]. split; [reflexivity|]. intros t' I' E'. rewrite E, map_app in N. cbn [map] in N. apply NoDup_remove_2 in N. apply N. apply in_app_iff. right. rewrite <- E'. apply in_map. exact I'.
Qed.
Theorem group_valid (g : fgroup V) d m strict zipped fs items fs' loading (ts : list data) :
  plain_group g -> plain_dir d -> fe_isdir env d = true -> component m -> no_clash zipped m (map fst items) -> NoDup (map t_url (gr_tables g)) ->
  Forall2 (describes g) (gr_tables g) ts -> (forall x, In x ts -> In (da_name x, map (@IDict V) (da_items x)) items) ->
  (forall x, In x ts -> presentable sc pv lim x /\ storable sc pv lim zipped (da_dialect x) (da_cols x) (da_items x)) -> key_columns ts ->
  group_write sc env pv lim g strict zipped fs (in_dir d m) items = (fs', Ok tt) ->
  (is_valid veq loading (map (from_files sc lim expand fs' d) ts) = Ok true <-> loading = [] /\ keys_hold veq ts).
Proof.
  intros G D I M C Nu Ds Its P K Gw. destruct (group_write_ok sc env pv lim g d m D M strict zipped fs items fs' Gw) as (fs1 & j & W & _ & _ & Ef).
  pose proof (write_tables_ok sc env pv lim g d strict zipped items fs fs1 W (clash_free env g d m G D I zipped _ C)) as Fin. pose proof (meta_free env g d m G D I M zipped items C) as Mf.
  assert (One : forall x t, In x ts -> In t (gr_tables g) -> describes g t x -> let y := from_files sc lim expand fs' d x in alike (in_memory x) y /\ reads_quietly y /\ forall log, io_warns (g_iter y log) = []).
  { intros x t Ix It (E1 & E2 & E3 & E4). pose proof (named_of g t Nu It) as N. destruct (P x Ix) as [Px Sx]. pose proof (Its x Ix) as Ii.
    destruct (proj1 (Forall_forall _ _) Fin _ Ii) as (t2 & before & text & k & fs0 & fs2 & N2 & Cc & Tw & Sto & Ag & Zs). cbn [fst snd] in *. rewrite E1 in N2.
    assert (t2 = t) by (apply named_iff in N; apply named_iff in N2; congruence). subst t2. rewrite (target_named env g d G D I (t_url t) t N) in *. apply dialect_unique in E2. rewrite <- E2, <- E4 in Tw.
    destruct (one_table sc expand Hx pv lim strict before x Px) as (file & Wx & A & Q1 & Q2). unfold writes in Wx. rewrite Tw in Wx. injection Wx as -> _. cbn zeta in *.
    assert (It' : forall st log, iter_file sc expand lim (da_dialect x) (da_lang x) st log (da_cols x) fs' (in_dir d (da_name x)) = iterdicts sc expand lim (da_dialect x) (da_lang x) st log (da_cols x) file).
    { intros st log. rewrite E1.
      assert (Ot : forall q0, In q0 (touched zipped (in_dir d (t_url t))) -> fs' q0 = fs1 q0).
      { intros q0 Q0. rewrite Ef. apply put_other. intros ->. apply Mf. exists (t_url t), (map (@IDict V) (da_items x)), t. split; [rewrite <- E1; exact Ii|]. split; [exact N|]. rewrite (target_named env g d G D I (t_url t) t N). exact Q0. }
      destruct zipped.
      - transitivity (iter_file sc expand lim (da_dialect x) (da_lang x) st log (da_cols x) fs2 (in_dir d (t_url t))).
        { destruct Ag as [[A1 A2]|A1]; [|discriminate A1]. apply iter_file_ext; [rewrite A1|rewrite A2]; apply Ot; [left|right; left]; reflexivity. }
        destruct Sx as ((dl & q & term & Sa & Ql) & Dq & Sk & Ke & En & Rf & Dh & Vr & Ci & Sv & Cw).
        eapply c52_write; [exact Sa|exact Dq|exact Sk|exact Ql|apply En; reflexivity|exact Tw| |apply Zs; reflexivity].
        intros rws HF. destruct (Cw rws HF) as (A1 & A2 & A3). auto.
      - unfold iter_file. rewrite Ot by (left; reflexivity). unfold stored in Sto. rewrite Sto. reflexivity. }
    destruct A as [B1 B2 B3 B4 B5 B6 B7]. split; [|split].
    - split; try reflexivity; unfold rows_of, from_files; cbn [g_iter]; intros log; rewrite It'; [exact (B6 log)|exact (B7 log)].
    - unfold reads_quietly, from_files. cbn [g_lax]. rewrite It'. exact Q1.
    - intros log. cbn [from_files g_iter]. rewrite It'. exact (Q2 log). }
  apply (valid_alike veq Hveq); [exact K| |].
  - assert (X : forall l xs, Forall2 (describes g) l xs -> (forall x, In x xs -> In x ts) -> (forall t, In t l -> In t (gr_tables g)) -> Forall2 alike (map in_memory xs) (map (from_files sc lim expand fs' d) xs)).
    { clear -One. intros l xs F. induction F as [|t x l xs Dx F IH]; intros S1 S2; cbn [map]; constructor.
      - exact (proj1 (One x t (S1 x (or_introl eq_refl)) (S2 t (or_introl eq_refl)) Dx)).
      - apply IH; [intros y Y; apply S1; right; exact Y|intros y Y; apply S2; right; exact Y]. }
    exact (X _ _ Ds (fun _ H => H) (fun _ H => H)).
  - intros y Iy. apply in_map_iff in Iy. destruct Iy as (x & <- & Ix). destruct (F2_r _ _ _ _ Ds Ix) as (t & It & Dx). exact (proj2 (One x t Ix It Dx)).
Qed.
End W.
