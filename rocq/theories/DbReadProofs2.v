(** The contents of association tables (C40). *)
From Coq Require Import QArith Permutation.
From Verif Require Import PyStr Dsv DsvProofs4 Dec Dates Datatype Column Group Sql Db DbSql DbSqlSpec SqlProofs DbSqlProofs DbSqlProofs2
  Sqlite SqliteProofs DbWrite DbWriteSpec DbWriteProofs DbWriteProofs2 DbWriteProofs3 DbWriteProofs4 DbWriteProofs5 DbWriteProofs6 DbReadProofs.
Open Scope N_scope.

Lemma atkey_eqb_ok a b : atkey_eqb a b = true <-> a = b.
Proof.
  destruct a as [n l], b as [m k]. unfold atkey_eqb. cbn [fst snd]. rewrite andb_true_iff, str_eqb_eq.
  destruct (list_eq_dec str_eq_dec l k); split; intros H; try (destruct H; congruence); injection H as -> ->; auto; congruence.
Qed.
Definition lookup (R : refs) (k : pystr * list pystr) : list (list bval) := match dget atkey_eqb R k with Some l => l | None => [] end.
Lemma dset_keys_incl (R : refs) k v x : In x (map fst (dset atkey_eqb R k v)) -> In x (map fst R) \/ x = k.
Proof.
  induction R as [|[k' v'] R IH]; cbn; [intros [<-|[]]; auto|]. destruct (atkey_eqb k k'); cbn; [auto|]. intros [<-|H]; auto. destruct (IH H); auto.
Qed.
Lemma dset_nodup (R : refs) k v : NoDup (map fst R) -> NoDup (map fst (dset atkey_eqb R k v)).
Proof.
  induction R as [|[k' v'] R IH]; cbn; intros H; [repeat constructor; intros []|]. apply NoDup_cons_iff in H. destruct H as [H1 H2].
  destruct (atkey_eqb k k') eqn:E; cbn; [constructor; assumption|]. constructor; [|apply IH, H2]. intros X. apply dset_keys_incl in X.
  destruct X as [X| ->]; [contradiction|]. rewrite (proj2 (atkey_eqb_ok k k) eq_refl) in E. discriminate E.
Qed.
Definition of_key (k : pystr * list pystr) (l : list ((pystr * list pystr) * list bval)) : list (list bval) :=
  map snd (filter (fun x => atkey_eqb k (fst x)) l).
Lemma add_all_spec l : forall R, NoDup (map fst R) -> NoDup (map fst (add_all R l)) /\
  (forall k, lookup (add_all R l) k = lookup R k ++ of_key k l) /\ (forall k, In k (map fst (add_all R l)) -> In k (map fst R) \/ In k (map fst l)).
Proof.
  induction l as [|[k0 r0] l IH]; intros R N; unfold add_all in *; cbn [fold_left fst snd].
  - split; [exact N|]. split; [intros k; unfold of_key; cbn; rewrite app_nil_r; reflexivity|auto].
  - set (R1 := add_ref R k0 r0).
    assert (N1 : NoDup (map fst R1)) by (unfold R1, add_ref; destruct (dget atkey_eqb R k0); apply dset_nodup, N).
    destruct (IH R1 N1) as (I1 & I2 & I3). split; [exact I1|]. split.
    + intros k. rewrite I2. unfold of_key. cbn [filter fst]. 
      assert (X : lookup R1 k = lookup R k ++ if atkey_eqb k k0 then [r0] else []).
      { unfold lookup, R1, add_ref. destruct (dget atkey_eqb R k0) as [l0|] eqn:E; rewrite (dget_dset atkey_eqb atkey_eqb_ok); destruct (atkey_eqb k k0) eqn:E2.
        - apply atkey_eqb_ok in E2. subst k0. rewrite E. reflexivity.
        - rewrite app_nil_r. reflexivity.
        - apply atkey_eqb_ok in E2. subst k0. rewrite E. reflexivity.
        - rewrite app_nil_r. reflexivity. }
      rewrite X. destruct (atkey_eqb k k0); cbn [map snd]; rewrite <- app_assoc; reflexivity.
    + intros k H. destruct (I3 k H) as [H1|H1]; [|right; right; exact H1].
      assert (X : In k (map fst R) \/ k = k0) by (unfold R1, add_ref in H1; destruct (dget atkey_eqb R k0); apply dset_keys_incl in H1; exact H1).
      destruct X as [X| ->]; [left; exact X|right; left; reflexivity].
Qed.
Lemma flat_pick {B} (R : refs) (p : pystr * list pystr -> bool) (f : list bval -> B) k0 : NoDup (map fst R) ->
  (forall k, In k (map fst R) -> p k = atkey_eqb k0 k) ->
  flat_map (fun kl => if p (fst kl) then map f (snd kl) else []) R = map f (lookup R k0).
Proof.
  unfold lookup. induction R as [|[k l] R IH]; intros N H; [reflexivity|]. cbn [map fst] in N. apply NoDup_cons_iff in N. destruct N as [N1 N2].
  cbn [flat_map fst snd dget]. rewrite (H k (or_introl eq_refl)). destruct (atkey_eqb k0 k) eqn:E.
  - apply atkey_eqb_ok in E. subst k0.
    assert (X : flat_map (fun kl : (pystr * list pystr) * list (list bval) => if p (fst kl) then map f (snd kl) else []) R = []).
    { clear IH N2. assert (Y : forall kl, In kl R -> p (fst kl) = false).
      { intros kl Hk. rewrite H by (right; apply in_map, Hk). destruct (atkey_eqb k (fst kl)) eqn:F; [|reflexivity]. apply atkey_eqb_ok in F. exfalso. apply N1. rewrite F. apply in_map, Hk. }
      clear H N1. induction R as [|kl R IH]; [reflexivity|]. cbn [flat_map]. rewrite (Y kl (or_introl eq_refl)). apply IH. intros x Hx. apply Y. right. exact Hx. }
    rewrite X. apply app_nil_r.
  - apply IH; [exact N2|]. intros q Hq. apply H. right. exact Hq.
Qed.

Section Db.
Variable P : py_fns.
Variable St : store_fns.
Variable tr : translator.

Definition texts (l : list pystr) : list bval := map (fun t => BVal (POne (VStr t))) l.
Definition stexts (b : list bval) : row := map (fun x => match x with BVal (POne (VStr t)) => SText t | _ => SNull end) b.
Lemma bind_texts l vals : mapM (bind_value P) (texts l) = Ok vals -> vals = map SText l.
Proof.
  revert vals. induction l as [|t l IH]; intros vals H; cbn [texts map mapM] in H; [apply Ok_inj in H; auto|].
  apply bind_ok in H. destruct H as (u & Hu & H). apply bind_ok in H. destruct H as (us & Hus & H). apply Ok_inj in H. subst vals.
  apply bind_text_ok in Hu. subst u. cbn [map]. f_equal. apply IH, Hus.
Qed.
Lemma stexts_texts l : stexts (texts l) = map SText l.
Proof. unfold stexts, texts. rewrite map_map. reflexivity. Qed.
Definition akeys (a : assoc) : list pystr := [as_afk a; as_bfk a; lit "context"].
Lemma association_names a : map cs_name (ts_cols (association_table a)) = akeys a.
Proof. reflexivity. Qed.
Lemma association_filled a x y z : cols_distinct tr (association_table a) -> filled St (association_table a) (combine (akeys a) [SText x; SText y; SText z]) = [SText x; SText y; SText z].
Proof.
  intros D. pose proof (cols_nodup tr _ D) as N. rewrite association_names in N. unfold akeys in N.
  assert (N1 : as_bfk a <> as_afk a) by (intros E; inversion N as [|? ? X]; subst; apply X; left; exact E).
  assert (N2 : lit "context" <> as_afk a) by (intros E; inversion N as [|? ? X]; subst; apply X; right; left; exact E).
  assert (N3 : lit "context" <> as_bfk a) by (intros E; inversion N as [|? ? X Y]; subst; inversion Y as [|? ? X2]; subst; apply X2; left; exact E).
  apply str_eqb_neq in N1, N2, N3. unfold filled, association_table, akeys. cbn [ts_cols map new_colspec cs_name combine dget].
  rewrite !str_eqb_refl, N1, N2, N3. reflexivity.
Qed.
Lemma map_ext3 (vss : list (list sval)) (bs : list (list bval)) (g : list sval -> row) : Forall2 (fun b v => g v = stexts b) bs vss -> map g vss = map stexts bs.
Proof. intros H. induction H as [|b v bs vss E H IH]; [reflexivity|]. cbn [map]. rewrite E, IH. reflexivity. Qed.
Lemma each_refs_ok tables R : NoDup (map (tkey tr) tables) ->
  (forall s, In s tables -> sql_clean tr s /\ cols_distinct tr s) ->
  (forall k l, In (k, l) R -> exists a, k = atkey a /\ In (association_table a) tables /\ forall b, In b l -> exists x y z, b = texts [x; y; z]) ->
  forall g c c', current c = tabs tr g tables ->
  each (fun c (kr : (pystr * list pystr) * list (list bval)) => insert P St tr c (fst (fst kr)) (snd (fst kr)) (snd kr)) c R = (c', Ok tt) ->
  exists h, current c' = tabs tr h tables /\
  forall k, h k = g k ++ flat_map (fun kl => if str_eqb k (ascii_lower (tr (fst (fst kl)) None)) then map stexts (snd kl) else []) R.
Proof.
  intros N Hs. induction R as [|[k l] R IH]; intros HR g c c' C W; cbn [each] in W.
  - injection W as <-. exists g. split; [exact C|]. intros k. symmetry. apply app_nil_r.
  - cbn [fst snd] in W. destruct (insert P St tr c (fst k) (snd k) l) as [c1 [[]|e]] eqn:E; [|discriminate W].
    destruct (HR k l (or_introl eq_refl)) as (a & -> & Ia & Hl). destruct (Hs _ Ia) as [Sc Sd]. set (s := association_table a) in *.
    assert (Hp : parse (insert_sql tr (ts_name s) (akeys a)) = Some (SInsert (tr (ts_name s) None) (map (fun k => tr (ts_name s) (Some k)) (akeys a)) (length (akeys a)))).
    { apply insert_parses; [apply Sc| |discriminate]. intros q Hq. rewrite <- association_names in Hq. apply in_map_iff in Hq. destruct Hq as (d & <- & Id).
      apply (sc_cols tr s Sc d Id). }
    pose proof (tabs_find tr g tables s N Ia) as Ft0. rewrite <- C in Ft0.
    edestruct (fun Nu => insert_ok P St tr c c1 (ts_name s) (akeys a) l _ _ _ _ Hp Ft0 Nu E) as (vss & M & L & Cc & U).
    { intros b vals Ib B. unfold numbered, alias. cbn [with_rows new_table tb_pk s association_table ts_pk map]. discriminate. }
    assert (X : map (fill St (with_rows (new_table tr s) (g (tkey tr s))) (map (fun k => tr (ts_name s) (Some k)) (akeys a))) vss = map stexts l).
    { apply map_ext3. apply mapM_Forall2 in M. clear -M Hl Sd. induction M as [|b v l vss Hb M IH]; constructor; [|apply IH; intros q Hq; apply Hl; right; exact Hq].
      destruct (Hl b (or_introl eq_refl)) as (x & y & z & ->). apply bind_texts in Hb. subst v. rewrite stexts_texts.
      rewrite fill_eq; [|exact Sd|reflexivity|].
      - apply (association_filled a x y z Sd).
      - intros k Hk. rewrite <- association_names in Hk. apply in_map_iff in Hk. destruct Hk as (d & <- & Id). exists d. auto. }
    rewrite X in Cc. rewrite C, tabs_add in Cc.
    destruct (IH (fun k l H => HR k l (or_intror H)) _ _ _ Cc W) as (h & H1 & H2). exists h. split; [exact H1|].
    intros k. rewrite H2. unfold plus. cbn [flat_map fst snd atkey]. change (ts_name s) with (as_name a). destruct (str_eqb k (ascii_lower (tr (as_name a) None))).
    + rewrite <- app_assoc. reflexivity.
    + reflexivity.
Qed.
End Db.
