(** Reading lists of keys back (C40). *)
From Coq Require Import QArith Permutation.
From Verif Require Import PyStr Dsv DsvProofs4 Dec Dates Datatype Column Group GroupProofs1 Sql Db DbSql DbSqlSpec SqlProofs DbSqlProofs DbSqlProofs2
  Sqlite SqliteProofs DbWrite DbWriteSpec DbWriteProofs DbWriteProofs2 DbWriteProofs3 DbWriteProofs4 DbWriteProofs5 DbWriteProofs6 DbReadProofs DbReadProofs2 DbReadProofs3.
Open Scope N_scope.

Lemma str_cmp_same a : str_cmp a a = Eq.
Proof. induction a as [|x a IH]; [reflexivity|]. cbn. rewrite N.compare_refl. exact IH. Qed.
Lemma text_eqb a b : sv_eqb (SText a) (SText b) = str_eqb a b.
Proof.
  unfold sv_eqb. cbn [sv_cmp]. destruct (str_eqb a b) eqn:E.
  - apply str_eqb_eq in E. subst. rewrite str_cmp_same. reflexivity.
  - destruct (str_cmp a b) eqn:F; try reflexivity. apply str_cmp_eq in F. subst. rewrite str_eqb_refl in E. discriminate E.
Qed.
Lemma group_text a b : group_eqb (SText a) (SText b) = str_eqb a b.
Proof. unfold group_eqb. cbn [is_null andb orb]. apply text_eqb. Qed.

(** *** grouping *)
Lemma group_more i b : forall rest groups done, (forall x, In x b -> value_at 0 x = SText i) -> (forall g, In g groups -> group_eqb (fst g) (SText i) = false) ->
  group_by 0 (b ++ rest) (groups ++ [(SText i, done)]) = group_by 0 rest (groups ++ [(SText i, done ++ b)]).
Proof.
  induction b as [|x b IH]; intros rest groups done Hb Hg; [cbn [app]; rewrite app_nil_r; reflexivity|].
  cbn [app group_by]. rewrite (Hb x (or_introl eq_refl)).
  assert (E : existsb (fun g => group_eqb (fst g) (SText i)) (groups ++ [(SText i, done)]) = true).
  { rewrite existsb_app. cbn [existsb fst]. rewrite group_text, str_eqb_refl, orb_true_r. reflexivity. }
  rewrite E. rewrite map_app. cbn [map fst snd]. rewrite group_text, str_eqb_refl.
  assert (M : map (fun g => if group_eqb (fst g) (SText i) then (fst g, snd g ++ [x]) else g) groups = groups).
  { rewrite <- (map_id groups) at 2. apply map_ext_in. intros g Ig. rewrite (Hg g Ig). reflexivity. }
  rewrite M, IH; [|intros y Hy; apply Hb; right; exact Hy|exact Hg]. rewrite <- app_assoc. reflexivity.
Qed.
Definition block_group {A} (id : A -> pystr) (blk : A -> list row) (r : A) : list (sval * list row) :=
  match blk r with [] => [] | b => [(SText (id r), b)] end.
Lemma group_blocks {A} (id : A -> pystr) (blk : A -> list row) rs : forall groups, NoDup (map id rs) ->
  (forall r x, In r rs -> In x (blk r) -> value_at 0 x = SText (id r)) ->
  (forall r g, In r rs -> In g groups -> group_eqb (fst g) (SText (id r)) = false) ->
  group_by 0 (flat_map blk rs) groups = groups ++ flat_map (block_group id blk) rs.
Proof.
  induction rs as [|r rs IH]; intros groups N Hb Hg; [cbn; rewrite app_nil_r; reflexivity|].
  cbn [map] in N. apply NoDup_cons_iff in N. destruct N as [N1 N2]. cbn [flat_map]. unfold block_group at 1.
  destruct (blk r) as [|x b] eqn:E.
  - cbn [app]. apply IH; [exact N2|intros q y Hq; apply Hb; right; exact Hq|intros q g Hq; apply Hg; right; exact Hq].
  - assert (Hx : forall y, In y (x :: b) -> value_at 0 y = SText (id r)) by (intros y Hy; apply Hb; [left; reflexivity|rewrite E; exact Hy]).
    cbn [app group_by]. rewrite (Hx x (or_introl eq_refl)).
    assert (Z : existsb (fun g => group_eqb (fst g) (SText (id r))) groups = false).
    { destruct (existsb _ groups) eqn:F; [|reflexivity]. apply existsb_exists in F. destruct F as (g & Ig & F). rewrite (Hg r g (or_introl eq_refl) Ig) in F. discriminate F. }
    rewrite Z. rewrite group_more; [|intros y Hy; apply Hx; right; exact Hy|intros g Ig; apply (Hg r g (or_introl eq_refl) Ig)].
    rewrite IH; [rewrite <- app_assoc; reflexivity|exact N2|intros q y Hq; apply Hb; right; exact Hq|].
    intros q g Hq Ig. apply in_app_or in Ig. destruct Ig as [Ig|[<-|[]]]; [apply Hg; [right; exact Hq|exact Ig]|]. cbn [fst]. rewrite group_text.
    apply str_eqb_neq. intros F. apply N1. rewrite F. apply in_map, Hq.
Qed.
Lemma concat_texts sep l : l <> [] -> forall S, group_concat S sep (map SText l) = SText (join sep l).
Proof.
  intros N S. unfold group_concat.
  assert (F : filter (fun v => negb (is_null v)) (map SText l) = map SText l).
  { clear N. induction l as [|t l IH]; [reflexivity|]. cbn [map filter is_null negb]. rewrite IH. reflexivity. }
  rewrite F. destruct l as [|t l]; [contradiction|]. change (SText (join sep (map (sv_text S) (map SText (t :: l)))) = SText (join sep (t :: l))).
  rewrite map_map. cbn [sv_text]. rewrite map_id. reflexivity.
Qed.

Section Db.
Variable P : py_fns.
Variable St : store_fns.
Variable tr : translator.
Variable tables : list tablespec.
Variable items : list (pystr * list drow).
Hypothesis Hscan : forall l, Permutation (scan St l) l.
Hypothesis Hgroup : forall l, Permutation (group_scan St l) l.
Hypothesis Ht : tables_ok tr tables.
Hypothesis Hrows : forall s, In s tables -> rows_ok P s (data items s).
Hypothesis Hlists : forall s, In s tables -> lists_ok tr s (data items s).
Variable D : db.
Variable h : pystr -> list row.
Hypothesis W : wrote P St tr tables items D h.

(** *** primary keys are distinct *)
Lemma added_nodup (f : row -> pystr) rows : forall t, tb_pk t <> [] -> (forall x, In x rows -> values_of t (tb_pk t) x = [SText (f x)]) -> added_unique t rows ->
  NoDup (map f rows) /\ forall x y, In x rows -> In y (tb_rows t) -> values_of t (tb_pk t) y = [SText (f y)] -> f x <> f y.
Proof.
  induction rows as [|x rows IH]; intros t N V U; [split; [constructor|intros x y []]|]. destruct U as [U1 U2].
  destruct (IH (with_rows t (tb_rows t ++ [x])) N (fun y Hy => V y (or_intror Hy)) U2) as [I1 I2].
  assert (Vx := V x (or_introl eq_refl)).
  split.
  - cbn [map]. constructor; [|exact I1]. intros H. apply in_map_iff in H. destruct H as (y & Ey & Iy).
    apply (I2 y x Iy); [cbn [tb_rows with_rows]; apply in_or_app; right; left; reflexivity|exact Vx|exact Ey].
  - intros y z [<-|Iy] Iz Vz.
    + intros E. unfold unique_ok in U1. destruct (tb_pk t) as [|p pk] eqn:Ep; [contradiction|]. rewrite <- Ep in *. apply negb_true_iff in U1.
      assert (X : existsb (same_key t x) (tb_rows t) = true); [|congruence]. apply existsb_exists. exists z. split; [exact Iz|].
      unfold same_key. rewrite Vx, Vz, E. unfold all_eqb. cbn [combine forallb fst snd]. rewrite text_eqb, str_eqb_refl. reflexivity.
    + apply (I2 y z Iy); [cbn [tb_rows with_rows]; apply in_or_app; left; exact Iz|exact Vz].
Qed.
Lemma index_of_nth s c : cols_distinct tr s -> In c (ts_cols s) ->
  exists i, nth_error (ts_cols s) i = Some c /\ index_of (tr (ts_name s) (Some (cs_name c))) (map (fun d => tr (ts_name s) (Some (cs_name d))) (ts_cols s)) = Some i.
Proof.
  intros Dd Ic. destruct (index_of _ (map (fun d => tr (ts_name s) (Some (cs_name d))) (ts_cols s))) as [i|] eqn:E.
  - exists i. split; [|reflexivity]. destruct (index_of_cols _ _ _ _ E) as (d & Ed & Sd). rewrite (col_inj tr s d c Dd (nth_error_In _ _ Ed) Ic Sd) in Ed. exact Ed.
  - exfalso. pose proof (proj1 (index_of_none _ _) E (tr (ts_name s) (Some (cs_name c)))) as X.
    rewrite same_name_refl in X. discriminate X. apply (in_map (fun d => tr (ts_name s) (Some (cs_name d)))), Ic.
Qed.
Lemma ids_nodup s k a : In s tables -> free tables s -> In (k, a) (ts_m2m s) -> NoDup (map (idof s) (data items s)).
Proof.
  intros Is Fs Ia. destruct (wr_rows _ _ _ _ _ _ _ W s Is Fs) as [R U]. pose proof (wr_distinct _ _ _ _ _ _ _ W s Is) as Dd.
  destruct (lk_pk _ _ _ (Hlists s Is)) as [E|(c & Ic & Ep & Tc & Sc & Hc)]; [rewrite E in Ia; destruct Ia|].
  set (f := fun x : row => match values_of (new_table tr s) (tb_pk (new_table tr s)) x with [SText t] => t | _ => [] end).
  assert (X : Forall2 (fun r x => values_of (new_table tr s) (tb_pk (new_table tr s)) x = [SText (idof s r)]) (data items s) (h (tkey tr s))).
  { assert (G : forall rows m, incl rows (data items s) -> Forall2 (row_stored P St s) rows m ->
      Forall2 (fun r x => values_of (new_table tr s) (tb_pk (new_table tr s)) x = [SText (idof s r)]) rows m).
    { intros rows m I F. induction F as [|r x rows m Hx F IH]; constructor; [|apply IH; intros q Hq; apply I; right; exact Hq].
      cbn [new_table tb_pk]. unfold values_of, idof. rewrite Ep. cbn [map]. destruct (Hc r (I r (or_introl eq_refl))) as [t Et]. rewrite Et.
      unfold col_names. cbn [new_table tb_cols]. rewrite map_map. cbn [coldef_of cd_name].
      destruct (index_of_nth s c Dd Ic) as (i & Ei & Xi). rewrite Xi. pose proof (Forall2_nth _ _ _ i c SNull Hx Ei) as Z. cbn beta in Z. rewrite Et in Z.
      destruct Z as (b & u & Cb & Bu & Z). unfold value_at. rewrite Z. cbn [cell_value] in Cb. unfold convert, identity_type in Cb. rewrite Tc in Cb. cbn in Cb. apply Ok_inj in Cb. subst b.
      apply bind_text_ok in Bu. subst u. rewrite (tk_types _ _ Ht s c Is Ic), Tc. unfold db_type. rewrite Sc. reflexivity. }
    apply G; [intros q Hq; exact Hq|exact R]. }
  assert (Y : map f (h (tkey tr s)) = map (idof s) (data items s)).
  { clear -X. induction X as [|r x rows m Hx F IH]; [reflexivity|]. cbn [map]. unfold f at 1. rewrite Hx, IH. reflexivity. }
  rewrite <- Y. apply (added_nodup f (h (tkey tr s)) (new_table tr s)); [|intros x Hx|exact U].
  - cbn [new_table tb_pk]. rewrite Ep. discriminate.
  - destruct (Forall2_In_r _ _ _ _ X Hx) as (r & _ & E). unfold f. rewrite E. reflexivity.
Qed.

(** *** the query *)
Definition got (s : tablespec) (k : pystr) (r : drow) : list pystr :=
  flat_map (fun x => match value_at 1 x with SText t => [t] | _ => [] end) (group_scan St (ref_rows s k r)).
Lemma scanned s k r x : In x (group_scan St (ref_rows s k r)) -> exists t, x = [SText (idof s r); SText t; SText k].
Proof.
  intros H. apply (Permutation_in _ (Hgroup _)) in H. unfold ref_rows in H. apply in_map_iff in H. destruct H as (t & <- & _). exists t. reflexivity.
Qed.
Lemma got_perm s k r : Permutation (got s k r) (listed r k).
Proof.
  unfold got. eapply Permutation_trans; [apply Permutation_flat_map, Hgroup|]. unfold ref_rows. clear. induction (listed r k) as [|t l IH]; [constructor|].
  cbn [map flat_map value_at nth app]. constructor. exact IH.
Qed.
Lemma got_items s k r : map (value_at 1) (group_scan St (ref_rows s k r)) = map SText (got s k r).
Proof.
  unfold got. assert (G : forall l, (forall x, In x l -> exists t, x = [SText (idof s r); SText t; SText k]) ->
    map (value_at 1) l = map SText (flat_map (fun x => match value_at 1 x with SText t => [t] | _ => [] end) l)).
  { induction l as [|x l IH]; intros H; [reflexivity|]. destruct (H x (or_introl eq_refl)) as [t ->]. cbn [map flat_map value_at nth app].
    f_equal. apply IH. intros y Hy. apply H. right. exact Hy. }
  apply G. intros x. apply scanned.
Qed.
Lemma got_contexts s k r : map (fun x => match value_at 2 x with SNull => SText [] | v => v end) (group_scan St (ref_rows s k r)) = map SText (map (fun _ => k) (got s k r)).
Proof.
  unfold got. assert (G : forall l, (forall x, In x l -> exists t, x = [SText (idof s r); SText t; SText k]) ->
    map (fun x => match value_at 2 x with SNull => SText [] | v => v end) l = map SText (map (fun _ => k) (flat_map (fun x => match value_at 1 x with SText t => [t] | _ => [] end) l))).
  { induction l as [|x l IH]; intros H; [reflexivity|]. destruct (H x (or_introl eq_refl)) as [t ->]. cbn [map flat_map value_at nth app].
    f_equal. apply IH. intros y Hy. apply H. right. exact Hy. }
  apply G. intros x. apply scanned.
Qed.
Definition kid (t : pystr) : option value := Some (VStr t).
Definition nonempty (k : pystr) (r : drow) : bool := match listed r k with [] => false | _ => true end.
Definition found (s : tablespec) (k : pystr) : list (pystr * list pystr) := map (fun r => (idof s r, got s k r)) (filter (nonempty k) (data items s)).
Lemma got_words s k a r : In s tables -> In (k, a) (ts_m2m s) -> In r (data items s) -> Forall DbReadProofs.word (got s k r).
Proof.
  intros Is Ia Ir. apply Forall_forall. intros t H. apply (Permutation_in _ (got_perm s k r)) in H. rewrite (listed_texts r k) in H.
  destruct (lk_lists _ _ _ (Hlists s Is) r k a Ir Ia) as [E|(ts & E & F)]; rewrite E in H; [destruct H|].
  rewrite texts_of_map in H. rewrite Forall_forall in F. apply (F t H).
Qed.
Lemma mapM_map_ok {A B C} (f : B -> res C) (g : A -> B) (e : A -> C) l : (forall a, In a l -> f (g a) = Ok (e a)) -> mapM f (map g l) = Ok (map e l).
Proof.
  induction l as [|a l IH]; intros H; [reflexivity|]. cbn [map mapM]. rewrite (H a (or_introl eq_refl)). cbn [bind].
  rewrite IH by (intros b Hb; apply H; right; exact Hb). reflexivity.
Qed.
Lemma NoDup_filter_map {A B} (f : A -> B) (p : A -> bool) l : NoDup (map f l) -> NoDup (map f (filter p l)).
Proof.
  induction l as [|a l IH]; intros H; [constructor|]. cbn [map] in H. apply NoDup_cons_iff in H. destruct H as [H1 H2]. cbn [filter]. destruct (p a); [|apply IH, H2].
  cbn [map]. constructor; [|apply IH, H2]. intros X. apply H1. apply in_map_iff in X. destruct X as (b & E & Ib). apply filter_In in Ib. rewrite <- E. apply in_map, Ib.
Qed.
Lemma key_kid a b : key_eqb (kid a) (kid b) = str_eqb a b.
Proof. reflexivity. Qed.
Theorem select_ok s k a : In s tables -> free tables s -> In (k, a) (ts_m2m s) -> select_m2m P St tr D a k = Ok (keyed kid (found s k)).
Proof.
  intros Is Fs Ia. destruct (tk_assoc _ _ Ht s k a Is Ia) as [T _]. set (u := association_table a) in *.
  pose proof (wr_distinct _ _ _ _ _ _ _ W u T) as Du. pose proof (tk_sql _ _ Ht u T) as Su.
  destruct (proj2 (lk_columns _ _ _ (Hlists s Is)) k a Ia) as (_ & _ & Q1 & Q2 & Qc).
  unfold select_m2m. rewrite group_parses.
  2: { apply (sc_cols _ _ Su (new_colspec (as_afk a) None None false None)). left. reflexivity. }
  2: { apply (sc_cols _ _ Su (new_colspec (as_bfk a) None None false None)). right. left. reflexivity. }
  2: { apply (sc_table _ _ Su). }
  2: { exact Q1. }
  2: { exact Q2. }
  unfold select_group. rewrite (wr_tables _ _ _ _ _ _ _ W).
  change (tr (as_name a) None) with (tr (ts_name u) None). rewrite (tabs_find tr h tables u (tables_nodup tr tables Ht) T).
  assert (Cn : col_names (with_rows (new_table tr u) (h (tkey tr u))) = [tr (as_name a) (Some (as_afk a)); tr (as_name a) (Some (as_bfk a)); lit "context"]).
  { rewrite <- Qc. reflexivity. }
  assert (Dn : distinct [tr (as_name a) (Some (as_afk a)); tr (as_name a) (Some (as_bfk a)); lit "context"] = true) by (rewrite <- Qc; exact Du).
  cbn [distinct has_col index_of] in Dn. unfold has_col in Dn. cbn [index_of] in Dn.
  destruct (same_name (tr (as_name a) (Some (as_bfk a))) (tr (as_name a) (Some (as_afk a)))) eqn:E1; [discriminate Dn|].
  destruct (same_name (lit "context") (tr (as_name a) (Some (as_afk a)))) eqn:E2; [discriminate Dn|].
  destruct (same_name (lit "context") (tr (as_name a) (Some (as_bfk a)))) eqn:E3; [discriminate Dn|]. clear Dn.
  rewrite (same_name_sym (lit "context")) in E2, E3. rewrite (same_name_sym (tr (as_name a) (Some (as_bfk a)))) in E1.
  rewrite Cn. cbn [index_of]. rewrite !same_name_refl, E1, E2, E3.
  assert (Ct : col_type (with_rows (new_table tr u) (h (tkey tr u))) (lit "context") = TEXT).
  { unfold col_type. rewrite Cn. cbn [index_of]. rewrite E2, E3, same_name_refl. reflexivity. }
  rewrite Ct. cbn [tb_rows with_rows].
  destruct (wr_refs _ _ _ _ _ _ _ W s k a Is Ia) as [F1 F2]. fold u in F1, F2.
  assert (Fl : filter (fun r => let (x, y) := cmp_values St (Some TEXT, value_at 2 r) (None, SText k) in sv_eqb x y) (h (tkey tr u)) = flat_map (ref_rows s k) (data items s)).
  { rewrite <- F1. apply filter_ext_in. intros x Hx. destruct (F2 x Hx) as (i & t & c & ->). unfold context_is. cbn. fold (sv_eqb (SText c) (SText k)). apply text_eqb. }
  rewrite Fl. rewrite (group_blocks (idof s) (ref_rows s k)); [|apply (ids_nodup s k a Is Fs Ia)| |intros r g _ []].
  2: { intros r x _ Hx. unfold ref_rows in Hx. apply in_map_iff in Hx. destruct Hx as (t & <- & _). reflexivity. }
  cbn [app bind].
  assert (B : flat_map (block_group (idof s) (ref_rows s k)) (data items s) = map (fun r => (SText (idof s r), ref_rows s k r)) (filter (nonempty k) (data items s))).
  { clear. induction (data items s) as [|r l IH]; [reflexivity|]. cbn [flat_map filter]. rewrite IH. unfold block_group at 1. unfold nonempty at 2.
    assert (X : ref_rows s k r = map (fun t => [SText (idof s r); SText t; SText k]) (listed r k)) by reflexivity. destruct (listed r k) as [|t ts].
    - rewrite X. reflexivity.
    - cbn [map]. rewrite X. reflexivity. }
  rewrite B, map_map. cbn [fst snd].
  match goal with |- (pairs <- mapM ?f (map ?g ?l) ;; _) = _ => rewrite (mapM_map_ok f g (fun r => (kid (idof s r), got s k r)) l) end.
  - cbn [bind]. f_equal. assert (X : dset_all str_eqb [] (found s k) = found s k).
    { rewrite (dset_all_new str_eqb str_eqb_eq); [reflexivity|]. cbn [map app]. unfold found. rewrite map_map. cbn [fst]. apply NoDup_filter_map, (ids_nodup s k a Is Fs Ia). }
    rewrite <- X, <- (dset_all_keyed key_eqb kid key_kid). unfold found, keyed. rewrite map_map. reflexivity.
  - intros r Hr. apply filter_In in Hr. destruct Hr as [Ir Nr].
    assert (Ne : got s k r <> []).
    { intros E. pose proof (got_perm s k r) as Pm. rewrite E in Pm. apply Permutation_nil in Pm. unfold nonempty in Nr. rewrite Pm in Nr. discriminate Nr. }
    rewrite got_items, concat_texts by exact Ne.
    match goal with |- context [group_concat St (lit "||") (map ?f _)] => change f with (fun x : row => match value_at 2 x with SNull => SText [] | v => v end) end.
    rewrite got_contexts, concat_texts by (destruct (got s k r); [contradiction|discriminate]).
    cbn [is_null of_sval]. f_equal. f_equal. rewrite split_ws_join by (apply (got_words s k a r Is Ia Ir)). apply combine_take.
    etransitivity; [|apply (parts_join (map (fun _ => k) (got s k r)))]. rewrite map_length. apply Nat.le_refl.
Qed.
End Db.
