(** The contents of the tables after the first part of a write (C39). *)
From Coq Require Import QArith Permutation.
From Verif Require Import PyStr Dsv DsvProofs4 Dec Dates Datatype Column Group Sql Db DbSql DbSqlSpec SqlProofs DbSqlProofs DbSqlProofs2
  Sqlite SqliteProofs DbWrite DbWriteSpec DbWriteProofs DbWriteProofs2 DbWriteProofs3 DbWriteProofs4 DbWriteProofs5.
Open Scope N_scope.

Section Db.
Variable P : py_fns.
Variable St : store_fns.
Variable tr : translator.
Variable skip : bool.

Definition written (s : tablespec) (r : drow) (pairs : list (pystr * bval)) : Prop :=
  exists pk R1 R2, row_pk s r = Ok pk /\ write_items P skip s pk R1 r = Ok (pairs, R2).
Lemma write_rows_spec s rows : cols_distinct tr s -> forall R rs R', write_rows P skip s R rows = Ok (rs, R') ->
  R' = add_all R (flat_map (contrib_row s) rows) /\ Forall2 (written s) rows rs.
Proof.
  intros D. induction rows as [|r rows IH]; intros R rs R' H; cbn [write_rows] in H.
  - apply Ok_inj in H. injection H as <- <-. split; [reflexivity|constructor].
  - apply bind_ok in H. destruct H as ([x R1] & Hx & H). apply bind_ok in H. destruct H as ([ps R2] & Hy & H). cbn [fst snd] in *. apply Ok_inj in H.
    injection H as <- <-. destruct (IH _ _ _ Hy) as [I1 I2]. unfold write_row in Hx. apply bind_ok in Hx. destruct Hx as (pk & Hpk & Hx).
    split; [|constructor; [exists pk, R, R1; auto|exact I2]].
    destruct (write_items_spec P tr skip s pk r D R x R1 Hx) as (_ & E & _).
    cbn [flat_map]. rewrite add_all_app. assert (X : contrib_row s r = flat_map (contrib s pk) r) by (unfold contrib_row; rewrite Hpk; reflexivity). rewrite X, <- E. exact I1.
Qed.

(** what is needed of a table and its rows *)
Record fine (s : tablespec) (rows : list drow) : Prop := {
  fi_clean : sql_clean tr s;
  fi_distinct : cols_distinct tr s;
  fi_types : forall c, In c (ts_cols s) -> cs_db_type c = db_type (cs_type c) (cs_separator c);
  fi_pk : forall p, In p (ts_pk s) -> In p (map cs_name (ts_cols s));
  fi_rows : rows_ok P s rows;
  fi_m2m : forall c, In c (ts_cols s) -> has (ts_m2m s) (cs_name c) = false;
}.
Lemma written_keys s r pairs : cols_distinct tr s -> written s r pairs -> map fst pairs = filter (kept s) (map fst r).
Proof. intros D (pk & R1 & R2 & _ & W). apply (write_items_spec P tr skip s pk r D R1 pairs R2 W). Qed.
Lemma mapM_Forall2 {A B} (f : A -> res B) l m : mapM f l = Ok m -> Forall2 (fun a b => f a = Ok b) l m.
Proof. apply mapM_Ok_inv. Qed.
Lemma mapM_In {A B} (f : A -> res B) l m a : mapM f l = Ok m -> In a l -> exists b, f a = Ok b /\ In b m.
Proof.
  intros H. apply mapM_Forall2 in H. induction H as [|x y l m Hxy H IH]; intros I; [destruct I|].
  destruct I as [->|I]; [exists y; split; [exact Hxy|left; reflexivity]|]. destruct (IH I) as (b & Hb & Ib). exists b. split; [exact Hb|right; exact Ib].
Qed.
Lemma Forall2_In_r {A B} (R : A -> B -> Prop) l m b : Forall2 R l m -> In b m -> exists a, In a l /\ R a b.
Proof.
  intros H. induction H as [|x y l m Hxy H IH]; intros I; [destruct I|].
  destruct I as [->|I]; [exists x; split; [left; reflexivity|exact Hxy]|]. destruct (IH I) as (a & Ia & Ra). exists a. split; [right; exact Ia|exact Ra].
Qed.
Lemma rows_stored_aux s keys rows rs vss more : cols_distinct tr s -> (forall c, In c (ts_cols s) -> has (ts_m2m s) (cs_name c) = false) ->
  Forall2 (written s) rows rs -> (forall p, In p rs -> map fst p = keys) -> mapM (mapM (bind_value P)) (map (map snd) rs) = Ok vss ->
  Forall2 (row_stored P St s) rows (map (fill St (with_rows (new_table tr s) more) (map (fun k => tr (ts_name s) (Some k)) keys)) vss).
Proof.
  intros D M W. revert vss. induction W as [|r p rows rs Hp W IH]; intros vss K B; cbn [map mapM] in B.
  - apply Ok_inj in B. subst vss. constructor.
  - apply bind_ok in B. destruct B as (vs & Bv & B). apply bind_ok in B. destruct B as (vss' & Bs & B). apply Ok_inj in B. subst vss. cbn [map].
    constructor; [|apply IH; [intros q Hq; apply K; right; exact Hq|exact Bs]].
    assert (Kp : map fst p = keys) by (apply K; left; reflexivity).
    rewrite fill_eq.
    + rewrite <- Kp. destruct Hp as (pk & R1 & R2 & _ & Wp). apply (row_stored_filled P St tr skip s pk r R1 p R2 vs D M Wp Bv).
    + exact D.
    + rewrite <- Kp, map_length. rewrite (mapM_len _ _ _ Bv), map_length. reflexivity.
    + intros k Hk. rewrite <- Kp, (written_keys s r p D Hp) in Hk. apply filter_In in Hk. apply (kept_col tr s k D), Hk.
Qed.
Lemma plus_nil f k x : plus f k [] x = f x.
Proof. unfold plus. destruct (str_eqb x k); [apply app_nil_r|reflexivity]. Qed.
Lemma write_table_ok items tables f s c R c' R' : NoDup (map (tkey tr) tables) -> In s tables -> fine s (data items s) ->
  current c = tabs tr f tables -> write_table P St tr skip items (c, R) s = ((c', R'), Ok tt) ->
  R' = add_all R (flat_map (contrib_row s) (data items s)) /\ exists new, current c' = tabs tr (plus f (tkey tr s) new) tables /\
  Forall2 (row_stored P St s) (data items s) new /\ added_unique (with_rows (new_table tr s) (f (tkey tr s))) new.
Proof.
  intros N I F C W. destruct F as [Fc Fd Ft Fp Fr Fm]. unfold write_table in W. unfold data in *. destruct (dget str_eqb items (ts_name s)) as [rows|].
  2: { injection W as <- <-. split; [reflexivity|]. exists []. split; [|split; [constructor|exact Logic.I]].
       rewrite C. apply tabs_ext. intros u _. symmetry. apply plus_nil. }
  destruct (write_rows P skip s R rows) as [[rs R1]|e] eqn:Ew; [|discriminate W].
  destruct (write_rows_spec s rows Fd _ _ _ Ew) as [W1 W2].
  match type of W with (let (_, _) := insert P St tr c ?t ?k ?r in _) = _ => destruct (insert P St tr c t k r) as [c1 o] eqn:Ei end.
  injection W as -> -> ->. split; [exact W1|].
  destruct rs as [|p0 rs].
  { cbn in Ei. injection Ei as <-. inversion W2. subst. exists []. split; [|split; [constructor|exact Logic.I]].
    rewrite C. apply tabs_ext. intros u _. symmetry. apply plus_nil. }
  set (keys := map fst p0) in *.
  assert (K : forall p, In p (p0 :: rs) -> map fst p = keys).
  { destruct (rk_keys _ _ _ Fr) as (ks & _ & Hk). assert (X : forall p, In p (p0 :: rs) -> map fst p = filter (kept s) ks).
    { intros p Hp. destruct (Forall2_In_r _ _ _ _ W2 Hp) as (r & Ir & Wr). rewrite (written_keys s r p Fd Wr), (Hk r Ir). reflexivity. }
    intros p Hp. rewrite (X p Hp). symmetry. apply X. left. reflexivity. }
  assert (Kn : forall k, In k keys -> exists d, In d (ts_cols s) /\ cs_name d = k).
  { intros k Hk. assert (I0 : In p0 (p0 :: rs)) by (left; reflexivity). destruct (Forall2_In_r _ _ _ _ W2 I0) as (r & Ir & Wr).
    unfold keys in Hk. rewrite (written_keys s r p0 Fd Wr) in Hk. apply filter_In in Hk. apply (kept_col tr s k Fd), Hk. }
  assert (Ne : keys <> []).
  { intros E. rewrite E in Ei. apply insert_bad in Ei; [discriminate Ei|]. intros n cols k. apply insert_empty_keys, Fc. }
  assert (Hp : parse (insert_sql tr (ts_name s) keys) = Some (SInsert (tr (ts_name s) None) (map (fun k => tr (ts_name s) (Some k)) keys) (length keys))).
  { apply insert_parses; [apply Fc| |exact Ne]. intros k Hk. destruct (Kn k Hk) as (d & Id & <-). apply (sc_cols tr s Fc d Id). }
  pose proof (tabs_find tr f tables s N I) as Ft0. rewrite <- C in Ft0.
  edestruct (fun Nu => insert_ok P St tr c c' (ts_name s) keys _ _ _ _ _ Hp Ft0 Nu Ei) as (vss & M & L & Cc & U).
  { intros r vals Ir B. apply in_map_iff in Ir. destruct Ir as (p & <- & Ip). destruct (Forall2_In_r _ _ _ _ W2 Ip) as (r & Irr & Wr).
    rewrite fill_eq; [|exact Fd|rewrite (mapM_len _ _ _ B), map_length, <- (K p Ip), map_length; reflexivity|exact Kn].
    rewrite <- (K p Ip). destruct Wr as (pk & R2 & R3 & Hpk & Wp).
    apply (row_numbered P St tr s rows r); [exact Fd|exact Ft|exact Fp|exact Fr|exact Irr|exists pk; exact Hpk|].
    apply (row_stored_filled P St tr skip s pk r R2 p R3 vals Fd Fm Wp B). }
  eexists. split; [rewrite Cc, C, tabs_add; reflexivity|]. split; [|exact U].
  apply (rows_stored_aux s keys rows (p0 :: rs) vss _ Fd Fm W2 K M).
Qed.
Lemma write_tables_ok items tables ts : NoDup (map (tkey tr) tables) -> (forall s, In s ts -> In s tables /\ fine s (data items s)) -> NoDup (map (tkey tr) ts) ->
  forall f c R c' R', current c = tabs tr f tables -> write_tables P St tr skip items (c, R) ts = ((c', R'), Ok tt) ->
  R' = add_all R (flat_map (fun s => flat_map (contrib_row s) (data items s)) ts) /\
  exists g, current c' = tabs tr g tables /\ (forall k, ~ In k (map (tkey tr) ts) -> g k = f k) /\
  forall s, In s ts -> exists new, g (tkey tr s) = f (tkey tr s) ++ new /\
    Forall2 (row_stored P St s) (data items s) new /\ added_unique (with_rows (new_table tr s) (f (tkey tr s))) new.
Proof.
  intros N. induction ts as [|s ts IH]; intros H Nt f c R c' R' C W; cbn [write_tables] in W.
  - injection W as <- <-. split; [reflexivity|]. exists f. split; [exact C|]. split; [reflexivity|intros s []].
  - destruct (write_table P St tr skip items (c, R) s) as [[c1 R1] [[]|e]] eqn:E; [|discriminate W].
    destruct (H s (or_introl eq_refl)) as [Hs Fs]. destruct (write_table_ok items tables f s c R c1 R1 N Hs Fs C E) as (E1 & new & E2 & E3 & E4).
    cbn [map] in Nt. apply NoDup_cons_iff in Nt. destruct Nt as [Nt1 Nt2].
    destruct (IH (fun u Hu => H u (or_intror Hu)) Nt2 _ _ _ _ _ E2 W) as (I1 & g & I2 & I3 & I4).
    split; [cbn [flat_map]; rewrite add_all_app, <- E1; exact I1|]. exists g. split; [exact I2|]. split.
    + intros k Hk. rewrite I3 by (intros X; apply Hk; right; exact X). unfold plus. destruct (str_eqb k (tkey tr s)) eqn:Ek; [|reflexivity].
      apply str_eqb_eq in Ek. exfalso. apply Hk. left. auto.
    + intros u [<-|Hu].
      * exists new. rewrite I3 by exact Nt1. unfold plus. rewrite str_eqb_refl. auto.
      * destruct (I4 u Hu) as (nu & U1 & U2 & U3).
        assert (X : plus f (tkey tr s) new (tkey tr u) = f (tkey tr u)).
        { unfold plus. destruct (str_eqb (tkey tr u) (tkey tr s)) eqn:Ek; [|reflexivity]. apply str_eqb_eq in Ek. exfalso. apply Nt1. rewrite <- Ek. apply in_map, Hu. }
        rewrite X in *. eauto.
Qed.
End Db.
