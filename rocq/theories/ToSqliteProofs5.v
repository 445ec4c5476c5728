(** Rows whose keys are in another order (C65). *)
From Coq Require Import Permutation.
From Verif Require Import PyStr Dsv DsvProofs4 Datatype Column Schema Table TableProofs JsonTextProofs Group Sql Db DbSql Sqlite DbWrite DbWriteSpec Cli FrictionlessProofs2 ToSqliteSpec ToSqliteProofs2.

Definition align (keys : list pystr) (r : drow) : drow := map (fun k => (k, value_or_none r k)) keys.
Definition aligned (rows : list drow) : list drow := match rows with [] => [] | r0 :: _ => map (align (map fst r0)) rows end.

Lemma align_in l r : NoDup (map fst r) -> (forall kv, In kv l -> In kv r) -> align (map fst l) r = l.
Proof.
  intros Nd H. unfold align. rewrite map_map. rewrite <- (map_id l) at 2. apply map_ext_in. intros [k v] I. cbn [fst]. unfold value_or_none.
  rewrite (proj1 (dget_In_unique r k v Nd) (H _ I)). reflexivity.
Qed.
Lemma align_self r : NoDup (map fst r) -> align (map fst r) r = r.
Proof. intros Nd. apply align_in; [exact Nd|auto]. Qed.
Lemma step_keys keys r : in_step keys r -> Permutation keys (map fst r).
Proof.
  intros (b & m & a & m' & -> & -> & Pm & _). rewrite !map_app. apply Permutation_app_head, Permutation_app_tail, Permutation_sym, Pm.
Qed.
Lemma align_step keys r : in_step keys r -> NoDup (map fst r) ->
  exists b m a m', r = b ++ m ++ a /\ align keys r = b ++ map (fun k => (k, PNone)) m' ++ a /\ m = map (fun k => (k, PNone)) (map fst m) /\ Permutation (map fst m) m'.
Proof.
  intros (b & m & a & m' & Er & -> & Pm & Fn) Nd. exists b, m, a, m'. split; [exact Er|]. split; [|split; [|exact Pm]].
  - unfold align. rewrite !map_app. fold (align (map fst b) r) (align (map fst a) r) (align m' r). rewrite (align_in b r Nd), (align_in a r Nd).
    + f_equal. f_equal. apply map_ext_in. intros k Ik. f_equal. apply (Permutation_in _ (Permutation_sym Pm)) in Ik. apply in_map_iff in Ik. destruct Ik as ([k' v] & <- & I). cbn [fst].
      rewrite Forall_forall in Fn. pose proof (Fn _ I) as Ev. cbn in Ev. subst v. unfold value_or_none. rewrite (proj1 (dget_In_unique r k' PNone Nd)); [reflexivity|]. subst r. rewrite !in_app_iff. auto.
    + intros kv I. subst r. rewrite !in_app_iff. auto.
    + intros kv I. subst r. rewrite !in_app_iff. auto.
  - clear -Fn. induction Fn as [|[k v] m E Fn IH]; [reflexivity|]. cbn in E. subst v. cbn [map fst]. f_equal. exact IH.
Qed.
Lemma align_get keys r k : (In k keys <-> In k (map fst r)) -> dget str_eqb (align keys r) k = dget str_eqb r k.
Proof.
  intros Ek. assert (G : dget str_eqb (align keys r) k = if in_dec str_eq_dec k keys then Some (value_or_none r k) else None).
  { clear Ek. induction keys as [|x keys IH]; [reflexivity|]. cbn [align map dget]. destruct (str_eqb k x) eqn:E.
    - apply str_eqb_eq in E. subst x. destruct (in_dec str_eq_dec k (k :: keys)) as [|n]; [reflexivity|]. exfalso. apply n. left. reflexivity.
    - fold (align keys r). rewrite IH. destruct (in_dec str_eq_dec k keys) as [i|n], (in_dec str_eq_dec k (x :: keys)) as [i'|n']; try reflexivity; exfalso; [apply n'; right; exact i|].
      destruct i' as [->|i']; [rewrite str_eqb_refl in E; discriminate E|contradiction]. }
  rewrite G. unfold value_or_none. destruct (in_dec str_eq_dec k keys) as [i|n].
  - apply Ek, dget_keys in i. destruct (dget str_eqb r k); [reflexivity|contradiction i; reflexivity].
  - destruct (dget str_eqb r k) eqn:E; [|reflexivity]. exfalso. apply n, Ek, dget_keys. rewrite E. discriminate.
Qed.
Lemma align_same keys r : in_step keys r -> forall k, dget str_eqb (align keys r) k = dget str_eqb r k.
Proof.
  intros St k. apply align_get. pose proof (step_keys _ _ St) as Pm. split; intros I; [apply (Permutation_in _ Pm I)|apply (Permutation_in _ (Permutation_sym Pm) I)].
Qed.

Section Write.
Variables (P : py_fns) (St : store_fns) (tr : translator).
Section Rows.
Variable s : tablespec.
Notation witems := (write_items P false s). Notation witem := (write_item P false s).
Lemma write_items_app pk a : forall R b, witems pk R (a ++ b) = (x <- witems pk R a ;; y <- witems pk (snd x) b ;; Ok (fst x ++ fst y, snd y)).
Proof.
  induction a as [|kv a IH]; intros R b; cbn [app write_items bind fst snd].
  - destruct (witems pk R b) as [[l R']|]; reflexivity.
  - destruct (witem pk R kv) as [[o R1]|]; [|reflexivity]. cbn [bind fst snd]. rewrite IH. destruct (witems pk R1 a) as [[la R2]|]; [|reflexivity]. cbn [bind fst snd].
    destruct (witems pk R2 b) as [[lb R3]|]; [|reflexivity]. cbn [bind fst snd]. destruct o; reflexivity.
Qed.
(** what is written for None *)
Definition none_fine (pk : pyval value) (k : pystr) : Prop :=
  match dget str_eqb (ts_m2m s) k with Some _ => py_true pk = true | None => dget str_eqb (cols_dict s) k <> None end.
Definition none_out (k : pystr) : list bval := match dget str_eqb (ts_m2m s) k with Some _ => [] | None => [BVal PNone] end.
Lemma write_nones pk ks : forall R l R', witems pk R (map (fun k => (k, PNone)) ks) = Ok (l, R') -> R' = R /\ Forall (none_fine pk) ks /\ map snd l = flat_map none_out ks.
Proof.
  induction ks as [|k ks IH]; intros R l R' H; cbn [map write_items] in H; [apply Ok_inj in H; injection H as <- <-; repeat split; constructor|].
  apply bind_inv in H. destruct H as ([o R1] & E & H). apply bind_inv in H. destruct H as ([l' R2] & E' & H). apply Ok_inj in H. cbn [fst snd] in H. injection H as <- <-.
  unfold write_item in E. cbn [flat_map]. unfold none_out at 1. destruct (dget str_eqb (ts_m2m s) k) as [a|] eqn:Em.
  - destruct (py_true pk) eqn:Ep; [|discriminate E]. cbn [ref_items bind fold_left] in E. apply Ok_inj in E. injection E as <- <-. destruct (IH _ _ _ E') as (-> & F & G). repeat split; [constructor; [unfold none_fine; rewrite Em; exact Ep|exact F]|exact G].
  - destruct (dget str_eqb (cols_dict s) k) as [c|] eqn:Ec; [|discriminate E]. cbn [cell_value bind] in E. apply Ok_inj in E. injection E as <- <-. destruct (IH _ _ _ E') as (-> & F & G).
    repeat split; [constructor; [unfold none_fine; rewrite Em, Ec; discriminate|exact F]|]. cbn [map app]. f_equal. exact G.
Qed.
Lemma write_nones_fine pk ks : forall R, Forall (none_fine pk) ks -> exists l, witems pk R (map (fun k => (k, PNone)) ks) = Ok (l, R) /\ map snd l = flat_map none_out ks.
Proof.
  intros R F. induction F as [|k ks Fk F (l & IH & G)]; [exists []; split; reflexivity|]. cbn [map write_items]. unfold write_item, none_fine in *. cbn [flat_map]. unfold none_out at 1.
  destruct (dget str_eqb (ts_m2m s) k) as [a|] eqn:Em.
  - rewrite Fk. cbn [ref_items bind fold_left fst snd]. rewrite IH. cbn [bind fst snd]. exists l. split; [reflexivity|exact G].
  - destruct (dget str_eqb (cols_dict s) k) as [c|] eqn:Ec; [|contradiction Fk; reflexivity]. cbn [cell_value bind fst snd]. rewrite IH. cbn [bind fst snd]. eexists. split; [reflexivity|]. cbn [map app]. f_equal. exact G.
Qed.
Lemma nones_perm ks ks' : Permutation ks ks' -> flat_map none_out ks = flat_map none_out ks'.
Proof.
  intros Pm. induction Pm as [|k ks ks' Pm IH|k k' ks|]; cbn [flat_map]; [reflexivity|rewrite IH; reflexivity| |congruence].
  unfold none_out. destruct (dget str_eqb (ts_m2m s) k), (dget str_eqb (ts_m2m s) k'); reflexivity.
Qed.
Lemma write_row_align keys r R l R' : in_step keys r -> NoDup (map fst r) -> write_row P false s R r = Ok (l, R') ->
  exists l', write_row P false s R (align keys r) = Ok (l', R') /\ map snd l' = map snd l.
Proof.
  intros Sp Nd H. unfold write_row in *. apply bind_inv in H. destruct H as (pk & Epk & H).
  assert (E : row_pk s (align keys r) = Ok pk). { unfold row_pk in *. destruct (ts_pk s) as [|p [|]]; [exact Epk| |exact Epk]. rewrite (align_same _ _ Sp p). exact Epk. }
  rewrite E. cbn [bind]. clear E Epk. destruct (align_step _ _ Sp Nd) as (b & m & a & m' & -> & -> & Em & Pm). rewrite Em in H. clear Em.
  rewrite write_items_app in H. rewrite write_items_app. destruct (witems pk R b) as [[lb R1]|]; [|discriminate H]. cbn [bind fst snd] in *.
  rewrite write_items_app in H. rewrite write_items_app. destruct (witems pk R1 (map (fun k => (k, PNone)) (map fst m))) as [[lm R2]|] eqn:E2; [|discriminate H]. cbn [bind fst snd] in H.
  destruct (write_nones _ _ _ _ _ E2) as (-> & F & G). destruct (write_nones_fine pk m' R1) as (lm' & E3 & G').
  { rewrite Forall_forall in *. intros k I. apply F, (Permutation_in _ (Permutation_sym Pm) I). }
  rewrite E3. cbn [bind fst snd]. destruct (witems pk R1 a) as [[la R3]|]; [|discriminate H]. cbn [bind fst snd] in *. apply Ok_inj in H. injection H as <- <-. eexists. split; [reflexivity|].
  rewrite !map_app. rewrite G, G', (nones_perm _ _ Pm). reflexivity.
Qed.
Lemma write_rows_align keys rows : (forall r, In r rows -> in_step keys r /\ NoDup (map fst r)) -> forall R rs R', write_rows P false s R rows = Ok (rs, R') ->
  exists rs', write_rows P false s R (map (align keys) rows) = Ok (rs', R') /\ map (map snd) rs' = map (map snd) rs.
Proof.
  induction rows as [|r rows IH]; intros Hr R rs R' H; cbn [write_rows map] in *; [apply Ok_inj in H; injection H as <- <-; exists []; split; reflexivity|].
  apply bind_inv in H. destruct H as ([l R1] & E & H). apply bind_inv in H. destruct H as ([rs1 R2] & E' & H). apply Ok_inj in H. cbn [fst snd] in *. injection H as <- <-.
  destruct (Hr r (or_introl eq_refl)) as [Sp Nd]. destruct (write_row_align _ _ _ _ _ Sp Nd E) as (l' & El & Gl). rewrite El. cbn [bind fst snd].
  destruct (IH (fun x I => Hr x (or_intror I)) _ _ _ E') as (rs' & Ers & Grs). rewrite Ers. cbn [bind fst snd]. eexists. split; [reflexivity|]. cbn [map]. rewrite Gl, Grs. reflexivity.
Qed.
End Rows.
(** rows that fit: the keys are those of the first one, up to moved Nones *)
Definition rows_step (rows : list drow) : Prop := forall r0 rest r, rows = r0 :: rest -> In r rows -> in_step (map fst r0) r /\ NoDup (map fst r).
Definition items_aligned (items : list (pystr * list drow)) : list (pystr * list drow) := map (fun nr => (fst nr, aligned (snd nr))) items.
Lemma items_get items n : dget str_eqb (items_aligned items) n = option_map aligned (dget str_eqb items n).
Proof. induction items as [|[k rows] items IH]; [reflexivity|]. cbn [items_aligned map dget fst snd]. destruct (str_eqb n k); [reflexivity|exact IH]. Qed.
Lemma dget_pair {A} (l : list (pystr * A)) k v : dget str_eqb l k = Some v -> In (k, v) l.
Proof.
  induction l as [|[k' v'] l IH]; cbn [dget]; intros H; [discriminate H|]. destruct (str_eqb k k') eqn:E; [apply str_eqb_eq in E; subst; injection H as ->; left; reflexivity|right; apply IH, H].
Qed.
Lemma write_table_align items cR s x : (forall n rows, In (n, rows) items -> rows_step rows) -> write_table P St tr false items cR s = (x, Ok tt) -> write_table P St tr false (items_aligned items) cR s = (x, Ok tt).
Proof.
  intros Hi H. unfold write_table in *. destruct cR as [c R]. rewrite items_get. destruct (dget str_eqb items (ts_name s)) as [rows|] eqn:E; [|exact H]. cbn [option_map].
  apply dget_pair in E. specialize (Hi _ _ E). destruct rows as [|r0 rest]; [exact H|]. destruct (write_rows P false s R (r0 :: rest)) as [[rs R']|] eqn:Ew; [|discriminate H].
  destruct (write_rows_align s (map fst r0) (r0 :: rest) (fun r I => Hi r0 rest r eq_refl I) _ _ _ Ew) as (rs' & Ew' & G). cbn [aligned]. rewrite Ew'.
  assert (Ek : match rs' with r :: _ => map fst r | [] => [] end = match rs with r :: _ => map fst r | [] => [] end).
  { cbn [map write_rows] in Ew, Ew'. rewrite (align_self r0 (proj2 (Hi r0 rest r0 eq_refl (or_introl eq_refl)))) in Ew'. apply bind_inv in Ew, Ew'. destruct Ew as ([l R1] & E1 & Ew), Ew' as ([l' R1'] & E1' & Ew'). rewrite E1 in E1'. apply Ok_inj in E1'. injection E1' as <- <-.
    apply bind_inv in Ew, Ew'. destruct Ew as ([rs1 R2] & E2 & Ew), Ew' as ([rs1' R2'] & E2' & Ew'). apply Ok_inj in Ew, Ew'. cbn [fst snd] in *. injection Ew as <- _. injection Ew' as <- _. reflexivity. }
  rewrite Ek, G. exact H.
Qed.
Lemma write_tables_align items : (forall n rows, In (n, rows) items -> rows_step rows) -> forall ts cR x, write_tables P St tr false items cR ts = (x, Ok tt) -> write_tables P St tr false (items_aligned items) cR ts = (x, Ok tt).
Proof.
  intros Hi. induction ts as [|s ts IH]; intros cR x H; cbn [write_tables] in *; [exact H|]. destruct (write_table P St tr false items cR s) as [cR' [[]|e]] eqn:E; [|discriminate H].
  rewrite (write_table_align _ _ _ _ Hi E). apply IH, H.
Qed.
Lemma write_conn_align items tables c c' : (forall n rows, In (n, rows) items -> rows_step rows) -> write_conn P St tr false tables items c = (c', Ok tt) -> write_conn P St tr false tables (items_aligned items) c = (c', Ok tt).
Proof.
  intros Hi H. unfold write_conn in *. destruct (each (fun c s => execute St c (table_sql tr s)) c tables) as [c1 [[]|e]]; [|discriminate H].
  destruct (write_tables P St tr false items (commit c1, []) tables) as [[c2 R] [[]|e]] eqn:E; [|discriminate H]. rewrite (write_tables_align _ Hi _ _ _ E). exact H.
Qed.
Lemma write_file_align force items tables file st D : (forall n rows, In (n, rows) items -> rows_step rows) -> write_file P St tr force false tables items file = (st, Some D, Ok tt) ->
  write_file P St tr force false tables (items_aligned items) file = (st, Some D, Ok tt).
Proof.
  intros Hi H. unfold write_file in *.
  destruct (write_conn P St tr false tables items {| c_disk := []; c_work := None; c_log := [] |}) as [c r] eqn:E.
  assert (r = Ok tt). { destruct file; [destruct force|]; congruence. } subst r. rewrite (write_conn_align _ _ _ _ Hi E). exact H.
Qed.
End Write.
