(** Reading a database (C39, C40). *)
From Coq Require Import QArith Permutation.
From Verif Require DescrProofs.
From Verif Require Import PyStr Dsv DsvProofs4 Dec Dates Datatype Column Group GroupProofs1 Sql Db DbSql DbSqlSpec SqlProofs DbSqlProofs DbSqlProofs2
  Sqlite SqliteProofs DbWrite DbWriteSpec DbWriteProofs DbWriteProofs2 DbWriteProofs3 DbWriteProofs4 DbWriteProofs5 DbWriteProofs6
  DbReadProofs DbReadProofs2 DbReadProofs3 DbReadProofs4.
Open Scope N_scope.

(** *** the references by primary key *)
Definition srefs : Type := list (pystr * list (pystr * list pystr)).
Definition entry (R : srefs) (i : pystr) : list (pystr * list pystr) := match dget str_eqb R i with Some d => d | None => [] end.
Definition sadd (R : srefs) (col : pystr) (l : list (pystr * list pystr)) : srefs :=
  fold_left (fun R kv => dset str_eqb R (fst kv) (dset str_eqb (entry R (fst kv)) col (snd kv))) l R.
Lemma add_refs_keyed col l : forall R : srefs, add_refs (keyed kid R) col (keyed kid l) = keyed kid (sadd R col l).
Proof.
  induction l as [|[i v] l IH]; intros R; [reflexivity|]. unfold add_refs, sadd in *. cbn [keyed map fold_left fst snd].
  rewrite (dget_keyed key_eqb kid key_kid R i), (dset_keyed key_eqb kid key_kid). apply IH.
Qed.
Lemma entry_dset R i d j : entry (dset str_eqb R i d) j = if str_eqb j i then d else entry R j.
Proof. unfold entry. rewrite (dget_dset str_eqb str_eqb_eq). destruct (str_eqb j i); reflexivity. Qed.
Lemma entry_sadd col l : forall R i, NoDup (map fst l) ->
  entry (sadd R col l) i = match dget str_eqb l i with Some v => dset str_eqb (entry R i) col v | None => entry R i end.
Proof.
  induction l as [|[j v] l IH]; intros R i N; [reflexivity|]. cbn [map fst] in N. apply NoDup_cons_iff in N. destruct N as [N1 N2].
  unfold sadd in *. cbn [fold_left fst snd dget]. rewrite IH by exact N2. rewrite entry_dset. destruct (str_eqb i j) eqn:E; [|reflexivity].
  apply str_eqb_eq in E. subst j. destruct (dget str_eqb l i) as [w|] eqn:F; [|reflexivity]. exfalso. apply N1. apply dget_has in F. apply (in_map fst) in F. exact F.
Qed.

Section Db.
Variable P : py_fns.
Variable St : store_fns.
Variable tr : translator.
Variable tables : list tablespec.
Variable items : list (pystr * list drow).
Hypothesis Hscan : forall l, Permutation (scan St l) l.
Hypothesis Hgroup : forall l, Permutation (group_scan St l) l.
Hypothesis Ht : tables_ok tr tables.
Hypothesis Hrows : forall s, In s tables -> rows_ok P s (data items s).
Hypothesis Hlists : forall s, In s tables -> lists_ok tr s (data items s).
Variable D : db.
Variable h : pystr -> list row.
Hypothesis W : wrote P St tr tables items D h.

Definition sel (s : tablespec) (r : drow) (ka : pystr * assoc) : list (pystr * list pystr) :=
  if nonempty (fst ka) r then [(fst ka, got St s (fst ka) r)] else [].
Lemma found_get s k a r : In s tables -> free tables s -> In (k, a) (ts_m2m s) -> In r (data items s) ->
  dget str_eqb (found St items s k) (idof s r) = if nonempty k r then Some (got St s k r) else None.
Proof.
  intros Is Fs Ia Ir. pose proof (ids_nodup P St tr tables items Ht Hlists D h W s k a Is Fs Ia) as N. unfold found.
  revert N Ir. generalize (data items s) as rows. induction rows as [|q rows IH]; intros N Ir; [destruct Ir|]. cbn [map] in N. apply NoDup_cons_iff in N. destruct N as [N1 N2].
  cbn [filter]. destruct (str_eqb (idof s r) (idof s q)) eqn:E.
  - assert (q = r).
    { destruct Ir as [->|Ir]; [reflexivity|]. apply str_eqb_eq in E. exfalso. apply N1. rewrite <- E. apply in_map, Ir. } subst q.
    destruct (nonempty k r); [cbn [map dget]; rewrite E; reflexivity|].
    destruct (dget str_eqb _ (idof s r)) as [w|] eqn:F; [|reflexivity]. exfalso. apply dget_has in F. apply in_map_iff in F. destruct F as (z & Ez & Iz).
    injection Ez as Ez _. apply filter_In in Iz. apply N1. rewrite <- Ez. apply in_map, Iz.
  - destruct Ir as [->|Ir]; [rewrite str_eqb_refl in E; discriminate E|]. destruct (nonempty k q); [cbn [map dget]; rewrite E|]; apply IH; assumption.
Qed.
Lemma sel_keys s r l x : In x (map fst (flat_map (sel s r) l)) -> In x (map fst l).
Proof.
  intros H. apply in_map_iff in H. destruct H as (y & <- & H). apply in_flat_map in H. destruct H as (ka & Ik & H). unfold sel in H.
  destruct (nonempty (fst ka) r); [|destruct H]. destruct H as [<-|[]]. cbn [fst]. apply in_map, Ik.
Qed.
Lemma all_refs_ok s : In s tables -> free tables s -> forall m done (R : srefs), ts_m2m s = done ++ m ->
  (forall r, In r (data items s) -> entry R (idof s r) = flat_map (sel s r) done) ->
  exists R', all_refs P St tr D (ts_name s) (keyed kid R) m = Ok (keyed kid R') /\ forall r, In r (data items s) -> entry R' (idof s r) = flat_map (sel s r) (ts_m2m s).
Proof.
  intros Is Fs. induction m as [|[k a] m IH]; intros done R E H.
  - exists R. split; [reflexivity|]. rewrite E, app_nil_r. exact H.
  - cbn [all_refs]. assert (Ia : In (k, a) (ts_m2m s)) by (rewrite E; apply in_or_app; right; left; reflexivity).
    rewrite (select_ok P St tr tables items Hgroup Ht Hlists D h W s k a Is Fs Ia). cbn [bind].
    destruct (lk_columns _ _ _ (Hlists s Is)) as [Nm Hm]. destruct (Hm k a Ia) as (Tk & _). rewrite Tk. rewrite add_refs_keyed.
    apply (IH (done ++ [(k, a)])); [rewrite <- app_assoc; exact E|]. intros r Ir. rewrite entry_sadd.
    + rewrite (found_get s k a r Is Fs Ia Ir), (H r Ir). rewrite flat_map_app. assert (X1 : flat_map (sel s r) [(k, a)] = if nonempty k r then [(k, got St s k r)] else []) by (cbn [flat_map]; rewrite app_nil_r; reflexivity).
      rewrite X1. destruct (nonempty k r); [|rewrite app_nil_r; reflexivity]. rewrite (dset_new str_eqb str_eqb_eq); [reflexivity|].
      intros X. apply sel_keys in X. rewrite E, map_app in Nm. cbn [map fst] in Nm. apply NoDup_remove_2 in Nm. apply Nm. apply in_or_app. left. exact X.
    + unfold found. rewrite map_map. cbn [fst]. apply NoDup_filter_map, (ids_nodup P St tr tables items Ht Hlists D h W s k a Is Fs Ia).
Qed.

(** *** rows *)
Lemma cells_names s r : map fst (cells tr s r) = map (fun c => tr (ts_name s) (Some (cs_name c))) (ts_cols s).
Proof. unfold cells. rewrite map_map. reflexivity. Qed.
Lemma sql_nodup s : In s tables -> NoDup (map (fun c => tr (ts_name s) (Some (cs_name c))) (ts_cols s)).
Proof. intros Is. apply (distinct_nodup (fun c => tr (ts_name s) (Some (cs_name c)))), (wr_distinct _ _ _ _ _ _ _ W s Is). Qed.
Lemma convert_get s c : In s tables -> In c (ts_cols s) -> dget str_eqb (convert_dict tr s) (tr (ts_name s) (Some (cs_name c))) = Some c.
Proof.
  intros Is Ic. unfold convert_dict. rewrite (dset_all_new str_eqb str_eqb_eq) by (cbn [map app]; rewrite map_map; apply sql_nodup, Is). cbn [app].
  apply dget_In; [rewrite map_map; apply sql_nodup, Is|]. apply (in_map (fun c => (tr (ts_name s) (Some (cs_name c)), c))), Ic.
Qed.
Lemma read_cells s r x : In s tables -> In r (data items s) -> row_stored P St s r x ->
  mapM (fun kv => match dget str_eqb (convert_dict tr s) (fst kv) with
                  | Some c => v <- read_value P c (snd kv) ;; Ok (fst kv, v)
                  | None => match snd kv with SNull => Ok (fst kv, PNone) | _ => Err KeyError end
                  end) (combine (map (fun c => tr (ts_name s) (Some (cs_name c))) (ts_cols s)) x) = Ok (cells tr s r).
Proof.
  intros Is Ir S. unfold cells.
  assert (G : forall cols, incl cols (ts_cols s) -> forall x, Forall2 (fun c v => cell_stored P St c (dget str_eqb r (cs_name c)) v) cols x ->
    mapM (fun kv => match dget str_eqb (convert_dict tr s) (fst kv) with
                  | Some c => v <- read_value P c (snd kv) ;; Ok (fst kv, v)
                  | None => match snd kv with SNull => Ok (fst kv, PNone) | _ => Err KeyError end
                  end) (combine (map (fun c => tr (ts_name s) (Some (cs_name c))) cols) x)
    = Ok (map (fun c => (tr (ts_name s) (Some (cs_name c)), value_or_none r (cs_name c))) cols)).
  { intros cols I y F. induction F as [|c v cols y Hv F IH]; [reflexivity|]. cbn [map combine mapM fst snd].
    assert (Ic : In c (ts_cols s)) by (apply I; left; reflexivity). rewrite (convert_get s c Is Ic).
    assert (V : read_value P c v = Ok (value_or_none r (cs_name c))).
    { pose proof (rk_values _ _ _ (Hrows s Is) r c Ir Ic) as Vo. unfold value_or_none in *. destruct (dget str_eqb r (cs_name c)) as [pv|].
      - apply (read_back P St c pv v (tk_types _ _ Ht s c Is Ic) Vo Hv).
      - cbn in Hv. subst v. reflexivity. }
    rewrite V. cbn [bind]. rewrite IH by (intros d Hd; apply I; right; exact Hd). reflexivity. }
  apply (G (ts_cols s) (fun c Hc => Hc) x S).
Qed.
Definition row_got (s : tablespec) (r : drow) (out : outrow) : Prop :=
  out = cells tr s r ++ map (fun ka => (fst ka, PList (map (fun t => Some (VStr t)) (got St s (fst ka) r)))) (ts_m2m s).
Lemma got_back s r out : row_got s r out -> row_back tr s r out.
Proof.
  intros E. unfold row_got in E. unfold row_back. exists (map (fun ka => (fst ka, got St s (fst ka) r)) (ts_m2m s)). split.
  - rewrite E, map_map. reflexivity.
  - clear -Hgroup. induction (ts_m2m s) as [|ka m IH]; constructor; [|exact IH]. split; [reflexivity|]. apply (got_perm St Hgroup s (fst ka) r).
Qed.
Lemma got_exact s r out : (forall l, group_scan St l = l) -> row_got s r out -> row_exact tr s r out.
Proof.
  intros G E. unfold row_got in E. unfold row_exact. rewrite E. f_equal. apply map_ext. intros [k a]. cbn [fst]. repeat f_equal.
  unfold got. rewrite G. unfold ref_rows. clear. induction (listed r k) as [|t l IH]; [reflexivity|]. cbn [map flat_map value_at nth app]. f_equal. exact IH.
Qed.
Lemma read_row_ok s r x (R : srefs) : In s tables -> free tables s -> In r (data items s) -> row_stored P St s r x ->
  (ts_m2m s = [] -> R = []) -> entry R (idof s r) = flat_map (sel s r) (ts_m2m s) ->
  exists out, read_row P tr s (keyed kid R) (map (fun c => tr (ts_name s) (Some (cs_name c))) (ts_cols s)) x = Ok out /\ row_got s r out.
Proof.
  intros Is Fs Ir S R0 RE. unfold read_row. rewrite (read_cells s r x Is Ir S). cbn [bind].
  rewrite (dset_all_new str_eqb str_eqb_eq (cells tr s r) []) by (cbn [map app]; rewrite cells_names; apply sql_nodup, Is). cbn [app].
  destruct (lk_columns _ _ _ (Hlists s Is)) as [Nm Hm].
  assert (Gc : forall c, In c (ts_cols s) -> dget str_eqb (cells tr s r) (tr (ts_name s) (Some (cs_name c))) = Some (value_or_none r (cs_name c))).
  { intros c Ic. apply dget_In; [rewrite cells_names; apply sql_nodup, Is|]. unfold cells. apply (in_map (fun c => (tr (ts_name s) (Some (cs_name c)), value_or_none r (cs_name c)))), Ic. }
  assert (Nd : NoDup (map fst (cells tr s r) ++ map fst (map (fun ka : pystr * assoc => (fst ka, PList [] : pyval value)) (ts_m2m s)))).
  { rewrite cells_names, map_map. cbn [fst]. apply DescrProofs.NoDup_app_intro; [apply sql_nodup, Is|exact Nm|]. intros n Hn Hk. apply in_map_iff in Hn. destruct Hn as (c & <- & Ic).
    apply in_map_iff in Hk. destruct Hk as ([k a] & Ek & Ia). cbn [fst] in Ek. destruct (Hm k a Ia) as (_ & X & _). destruct (X c Ic) as [X1 _]. apply X1. symmetry. exact Ek. }
  rewrite (dset_all_new str_eqb str_eqb_eq _ _ Nd).
  (* the primary key *)
  set (pkv := match ts_pk s with [p] => match dget str_eqb r p with Some (POne v) => Some v | _ => None end | _ => None end).
  assert (Pk : match ts_pk s with
               | [p] => match dget str_eqb (cells tr s r) (tr (ts_name s) (Some p)) with
                        | Some (POne v) => Ok (Some v) | Some PNone => Ok None | Some (PList _) => Err TypeError | None => Err KeyError end
               | _ => Ok None end = Ok pkv).
  { unfold pkv. destruct (ts_pk s) as [|p [|p2 ps]] eqn:Ep; try reflexivity.
    assert (Ip : In p (map cs_name (ts_cols s))) by (apply (tk_pk _ _ Ht s p Is); rewrite Ep; left; reflexivity).
    apply in_map_iff in Ip. destruct Ip as (c & <- & Ic). rewrite (Gc c Ic). pose proof (rk_values _ _ _ (Hrows s Is) r c Ir Ic) as V. unfold value_or_none in *.
    destruct (dget str_eqb r (cs_name c)) as [[|v|l]|]; try reflexivity. exfalso. destruct V as (c0 & sep & Hs & _).
    destruct (rk_pk _ _ _ (Hrows s Is) r c Ir Ic Ep) as [X _]. rewrite Hs in X. discriminate X. }
  match goal with |- context [pk <- ?m ;; _] => replace m with (Ok pkv : res (option value)) by (symmetry; exact Pk) end. cbn [bind].
  eexists. split; [reflexivity|]. unfold row_got.
  destruct (ts_m2m s) as [|ka0 m0] eqn:Em; [rewrite (R0 eq_refl); reflexivity|]. rewrite <- Em in *.
  assert (Ekid : pkv = kid (idof s r)).
  { destruct (lk_pk _ _ _ (Hlists s Is)) as [E|(c & Ic & Ep & _ & _ & Hc)]; [rewrite E in Em; discriminate Em|].
    destruct (Hc r Ir) as [t Et]. unfold pkv, idof. rewrite Ep, Et. reflexivity. }
  rewrite Ekid, (dget_keyed key_eqb kid key_kid).
  assert (X : forall d : outrow, match dget str_eqb R (idof s r) with
     | Some more => dset_all str_eqb d (map (fun kl => (fst kl, PList (map (fun x => Some (VStr x)) (snd kl)))) more) | None => d end =
     dset_all str_eqb d (map (fun kl => (fst kl, PList (map (fun x => Some (VStr x)) (snd kl)))) (flat_map (sel s r) (ts_m2m s)))).
  { intros d. rewrite <- RE. unfold entry. destruct (dget str_eqb R (idof s r)); reflexivity. }
  rewrite X. set (more := map (fun kl => (fst kl, PList (map (fun x => Some (VStr x)) (snd kl)) : pyval value)) (flat_map (sel s r) (ts_m2m s))).
  assert (Kmore : map fst more = map fst (flat_map (sel s r) (ts_m2m s))) by (unfold more; rewrite map_map; reflexivity).
  assert (Gm : forall m, NoDup (map fst m) -> NoDup (map fst (flat_map (sel s r) m)) /\
    forall k, dget str_eqb (map (fun kl => (fst kl, PList (map (fun x => Some (VStr x)) (snd kl)) : pyval value)) (flat_map (sel s r) m)) k =
              if str_mem k (map fst m) then (if nonempty k r then Some (PList (map (fun x => Some (VStr x)) (got St s k r))) else None) else None).
  { clear. induction m as [|[k a] m IH]; intros N; [split; [constructor|reflexivity]|]. cbn [map fst] in N. apply NoDup_cons_iff in N. destruct N as [N1 N2]. destruct (IH N2) as [I1 I2].
    cbn [flat_map]. unfold sel at 1 3. cbn [fst]. split.
    - destruct (nonempty k r); cbn [app map fst]; [|exact I1]. constructor; [|exact I1]. intros X. apply sel_keys in X. contradiction.
    - intros q. cbn [map fst str_mem existsb]. unfold str_mem in *. cbn [existsb]. destruct (nonempty k r) eqn:E; cbn [app map dget fst snd].
      + destruct (str_eqb q k) eqn:F; [apply str_eqb_eq in F; subst q; rewrite E; reflexivity|]. cbn [orb]. apply I2.
      + rewrite I2. destruct (str_eqb q k) eqn:F; [|reflexivity]. apply str_eqb_eq in F. subst q. rewrite E. cbn [orb].
        destruct (existsb (str_eqb k) (map fst m)); reflexivity. }
  destruct (Gm (ts_m2m s) Nm) as [Gm1 Gm2]. fold more in Gm2.
  rewrite dset_all_there; [|rewrite map_app; exact Nd|rewrite Kmore; exact Gm1|].
  2: { intros k Hk. rewrite Kmore in Hk. apply sel_keys in Hk. rewrite map_app, map_map. cbn [fst]. apply in_or_app. right. exact Hk. }
  rewrite map_app. f_equal.
  - rewrite <- (map_id (cells tr s r)) at 2. apply map_ext_in. intros [n v] Hn. cbn [fst snd]. rewrite Gm2.
    assert (F : str_mem n (map fst (ts_m2m s)) = false); [|rewrite F; reflexivity]. apply str_mem_false. intros Hk.
    apply (in_map fst) in Hn. cbn [fst] in Hn. rewrite cells_names in Hn. apply in_map_iff in Hn. destruct Hn as (c & <- & Ic).
    apply in_map_iff in Hk. destruct Hk as ([k a] & Ek & Ia). cbn [fst] in Ek. destruct (Hm k a Ia) as (_ & Y & _). destruct (Y c Ic) as [Y1 _]. apply Y1. symmetry. exact Ek.
  - rewrite map_map. apply map_ext_in. intros [k a] Hk. cbn [fst snd]. rewrite Gm2.
    assert (F : str_mem k (map fst (ts_m2m s)) = true) by (apply str_mem_In; apply (in_map fst) in Hk; exact Hk). rewrite F.
    destruct (nonempty k r) eqn:E; [reflexivity|]. unfold nonempty in E.
    assert (Z : got St s k r = []).
    { pose proof (got_perm St Hgroup s k r) as Pm. destruct (listed r k); [|discriminate E]. symmetry in Pm. apply Permutation_nil in Pm. exact Pm. }
    rewrite Z. reflexivity.
Qed.

(** *** tables *)
Lemma mapM_exists {A B C} (f : A -> res B) (Q : C -> B -> Prop) (R : C -> A -> Prop) cs l : Forall2 R cs l ->
  (forall c a, In c cs -> R c a -> exists b, f a = Ok b /\ Q c b) -> exists m, mapM f l = Ok m /\ Forall2 Q cs m.
Proof.
  intros F H. induction F as [|c a cs l Hca F IH]; [exists []; split; [reflexivity|constructor]|].
  destruct (H c a (or_introl eq_refl) Hca) as (b & Hb & Qb). destruct (IH (fun c a Hc => H c a (or_intror Hc))) as (m & Hm & Qm).
  exists (b :: m). split; [|constructor; assumption]. cbn [mapM]. rewrite Hb. cbn [bind]. rewrite Hm. reflexivity.
Qed.
Theorem read_table_from s rows : In s tables -> free tables s -> Forall2 (row_stored P St s) rows (scan St (h (tkey tr s))) -> incl rows (data items s) ->
  exists out, read_table P St tr D tables (ts_name s) = Ok out /\ Forall2 (row_got s) rows out.
Proof.
  intros Is Fs Fr Ir. unfold read_table.
  assert (Nn : NoDup (map ts_name tables)).
  { pose proof (tables_nodup tr tables Ht) as N. unfold tkey in N. rewrite <- (map_map ts_name (fun n => ascii_lower (tr n None))) in N. apply NoDup_map_inv in N. exact N. }
  rewrite (dset_all_new str_eqb str_eqb_eq) by (cbn [map app]; rewrite map_map; exact Nn). cbn [app].
  rewrite (dget_In _ (ts_name s) s) by (try (rewrite map_map; exact Nn); apply (in_map (fun s => (ts_name s, s))), Is).
  destruct (all_refs_ok s Is Fs (ts_m2m s) [] [] eq_refl) as (R & HR & RE); [intros r _; reflexivity|].
  change (@nil (option value * list (pystr * list pystr))) with (keyed kid ([] : srefs)).
  match goal with |- exists out, (x <- ?m ;; _) = _ /\ _ => replace m with (Ok (keyed kid R) : res refs_of) by (symmetry; exact HR) end. cbn [bind].
  rewrite select_parses by (apply (sc_table _ _ (tk_sql _ _ Ht s Is))). unfold select_all. rewrite (wr_tables _ _ _ _ _ _ _ W), (tabs_find tr h tables s (tables_nodup tr tables Ht) Is).
  cbn [bind fst snd tb_rows with_rows].
  assert (Nm : col_names (with_rows (new_table tr s) (h (tkey tr s))) = map (fun c => tr (ts_name s) (Some (cs_name c))) (ts_cols s)).
  { unfold col_names. cbn [with_rows new_table tb_cols]. rewrite map_map. reflexivity. }
  rewrite Nm.
  assert (R0 : ts_m2m s = [] -> R = []).
  { intros E. rewrite E in HR. cbn in HR. apply Ok_inj in HR. destruct R; [reflexivity|discriminate HR]. }
  destruct (mapM_exists (read_row P tr s (keyed kid R) (map (fun c => tr (ts_name s) (Some (cs_name c))) (ts_cols s))) (row_got s) _ _ _ Fr) as (out & Ho & Fo).
  { intros r x Hr Sx. apply read_row_ok; auto. }
  exists out. split; [exact Ho|exact Fo].
Qed.
Lemma Forall2_imp {A B} (Q R : A -> B -> Prop) l m : (forall a b, Q a b -> R a b) -> Forall2 Q l m -> Forall2 R l m.
Proof. intros I F. induction F; constructor; auto. Qed.
Theorem read_table_ok s : In s tables -> free tables s ->
  exists out rows, read_table P St tr D tables (ts_name s) = Ok out /\ Permutation rows (data items s) /\ Forall2 (row_back tr s) rows out.
Proof.
  intros Is Fs. destruct (wr_rows _ _ _ _ _ _ _ W s Is Fs) as [Rs _].
  destruct (Perm_Forall2 _ _ _ (scan St (h (tkey tr s))) Rs (Permutation_sym (Hscan _))) as (rows & Pr & Fr).
  destruct (read_table_from s rows Is Fs Fr) as (out & Ho & Fo).
  { intros r Hr. eapply Permutation_in; [apply Permutation_sym, Pr|exact Hr]. }
  exists out, rows. split; [exact Ho|]. split; [apply Permutation_sym, Pr|]. eapply Forall2_imp; [apply got_back|exact Fo].
Qed.
Theorem read_table_exact s : (forall l, scan St l = l) -> (forall l, group_scan St l = l) -> In s tables -> free tables s ->
  exists out, read_table P St tr D tables (ts_name s) = Ok out /\ Forall2 (row_exact tr s) (data items s) out.
Proof.
  intros Sc Gr Is Fs. destruct (wr_rows _ _ _ _ _ _ _ W s Is Fs) as [Rs _].
  destruct (read_table_from s (data items s) Is Fs) as (out & Ho & Fo); [rewrite Sc; exact Rs|apply incl_refl|].
  exists out. split; [exact Ho|]. eapply Forall2_imp; [intros r o; apply got_exact, Gr|exact Fo].
Qed.
End Db.
