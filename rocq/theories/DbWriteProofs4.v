(** The rows of a table as they are stored (C39). *)
From Coq Require Import QArith Permutation.
From Verif Require Import PyStr Dsv DsvProofs4 Dec Dates Datatype Column Group Sql Db DbSql DbSqlSpec SqlProofs DbSqlProofs DbSqlProofs2
  Sqlite SqliteProofs DbWrite DbWriteSpec DbWriteProofs DbWriteProofs2 DbWriteProofs3.
Open Scope N_scope.

Section Db.
Variable P : py_fns.
Variable St : store_fns.
Variable tr : translator.

Lemma insert_empty_keys table n cols k : clean (tr table None) -> parse (insert_sql tr table []) <> Some (SInsert n cols k).
Proof.
  intros Ht. unfold parse.
  assert (T : tokens (insert_sql tr table []) = Some ([TWord (lit "INSERT"); TWord (lit "INTO")] ++ [TId (tr table None)] ++ [TPunct 40; TPunct 41; TWord (lit "VALUES"); TPunct 40; TPunct 41])).
  { unfold tokens. rewrite (nn_mem (insert_sql tr table [])).
    - f_equal. unfold insert_sql. cbn [map]. change (quoted []) with (@nil N). change (join (lit ",") []) with (@nil N).
      match goal with |- lex ?t = ?k => assert (X : LG t k) end.
      { apply LS_app; [split; reflexivity|]. apply LG_app; [apply LG_bt, Ht|lconst|reflexivity]. }
      destruct X as (st & [X _] & _). exact X.
    - unfold insert_sql. apply nn_app; [nn_const|]. apply nn_app; [apply nn_names; intros m [<-|[]]; exact Ht|]. nn_const. }
  rewrite T. cbn [obind]. cbn. discriminate.
Qed.

(** *** filling rows *)
Lemma index_lookup s c keys : forall (vals : list sval), cols_distinct tr s -> In c (ts_cols s) -> length vals = length keys ->
  (forall k, In k keys -> exists d, In d (ts_cols s) /\ cs_name d = k) ->
  match index_of (tr (ts_name s) (Some (cs_name c))) (map (fun k => tr (ts_name s) (Some k)) keys) with Some j => Some (value_at j vals) | None => None end
  = dget str_eqb (combine keys vals) (cs_name c).
Proof.
  intros vals D Hc. revert vals. induction keys as [|k keys IH]; intros vals L H; [reflexivity|]. destruct vals as [|v vals]; [discriminate L|].
  cbn [map index_of combine dget]. destruct (H k (or_introl eq_refl)) as (d & Hd & Ed).
  destruct (same_name (tr (ts_name s) (Some k)) (tr (ts_name s) (Some (cs_name c)))) eqn:E.
  - rewrite <- Ed in E. apply (col_inj tr s d c D Hd Hc) in E. subst d. rewrite Ed, str_eqb_refl. reflexivity.
  - assert (X : str_eqb (cs_name c) k = false).
    { apply str_eqb_neq. intros X. rewrite X, same_name_refl in E. discriminate E. }
    rewrite X, <- IH; [|injection L as L; exact L|intros q Hq; apply H; right; exact Hq].
    destruct (index_of _ (map _ keys)) as [j|]; reflexivity.
Qed.
Definition filled (s : tablespec) (kv : list (pystr * sval)) : row :=
  map (fun c => match dget str_eqb kv (cs_name c) with Some v => affinity St (cs_db_type c) v | None => SNull end) (ts_cols s).
Lemma fill_eq s keys vals rows : cols_distinct tr s -> length vals = length keys ->
  (forall k, In k keys -> exists d, In d (ts_cols s) /\ cs_name d = k) ->
  fill St (with_rows (new_table tr s) rows) (map (fun k => tr (ts_name s) (Some k)) keys) vals = filled s (combine keys vals).
Proof.
  intros D L H. unfold fill, filled, with_rows, new_table. cbn [tb_cols]. rewrite map_map. apply map_ext_in. intros c Hc.
  cbn [coldef_of cd_name cd_type]. rewrite <- (index_lookup s c keys vals D Hc L H).
  destruct (index_of _ _) as [j|]; reflexivity.
Qed.

(** *** the items of a row *)
Definition has {V} (d : list (pystr * V)) (k : pystr) : bool := match dget str_eqb d k with Some _ => true | None => false end.
Definition kept (s : tablespec) (k : pystr) : bool := negb (has (ts_m2m s) k) && has (cols_dict s) k.
(** the rows for association tables *)
Definition contrib (s : tablespec) (pk : pyval value) (kv : pystr * pyval value) : list ((pystr * list pystr) * list bval) :=
  match dget str_eqb (ts_m2m s) (fst kv) with
  | Some a => match ref_items (snd kv) with
              | Ok items => map (fun vv => (atkey a, [BVal pk; BVal (opt_py vv); BVal (POne (VStr (fst kv)))])) items
              | Err _ => []
              end
  | None => []
  end.
Definition contrib_row (s : tablespec) (r : drow) : list ((pystr * list pystr) * list bval) :=
  match row_pk s r with Ok pk => flat_map (contrib s pk) r | Err _ => [] end.
Definition add_all (R : refs) (l : list ((pystr * list pystr) * list bval)) : refs := fold_left (fun R kr => add_ref R (fst kr) (snd kr)) l R.
Lemma add_all_app R a b : add_all R (a ++ b) = add_all (add_all R a) b.
Proof. apply fold_left_app. Qed.
Lemma fold_map {A B C} (f : C -> B -> C) (g : A -> B) l c : fold_left f (map g l) c = fold_left (fun c a => f c (g a)) l c.
Proof. revert c. induction l as [|a l IH]; intros c; [reflexivity|]. apply IH. Qed.
Lemma write_item_spec skip s pk R k v x R' : cols_distinct tr s -> write_item P skip s pk R (k, v) = Ok (x, R') ->
  R' = add_all R (contrib s pk (k, v)) /\
  match x with
  | Some (k', b) => kept s k = true /\ k' = k /\ exists c, In c (ts_cols s) /\ cs_name c = k /\ cell_value P c v = Ok b
  | None => kept s k = false
  end.
Proof.
  intros D. unfold write_item, contrib, kept, has. cbn [fst snd]. destruct (dget str_eqb (ts_m2m s) k) as [a|] eqn:Em.
  - destruct (py_true pk); [|discriminate]. intros H. apply bind_ok in H. destruct H as (items & Hi & H). apply Ok_inj in H. injection H as <- <-.
    rewrite Hi. split; [|reflexivity]. unfold add_all. rewrite fold_map. reflexivity.
  - destruct (dget str_eqb (cols_dict s) k) as [c|] eqn:Ec.
    + intros H. apply bind_ok in H. destruct H as (b & Hb & H). apply Ok_inj in H. injection H as <- <-. split; [reflexivity|].
      destruct (cols_dict_some tr s k c D Ec) as [C1 C2]. split; [reflexivity|]. split; [exact C2|]. exists c. auto.
    + destruct skip; [|discriminate]. intros H. apply Ok_inj in H. injection H as <- <-. auto.
Qed.
Lemma write_items_spec skip s pk items : cols_distinct tr s -> forall R pairs R', write_items P skip s pk R items = Ok (pairs, R') ->
  map fst pairs = filter (kept s) (map fst items) /\ R' = add_all R (flat_map (contrib s pk) items) /\
  forall c, In c (ts_cols s) -> has (ts_m2m s) (cs_name c) = false ->
    match dget str_eqb items (cs_name c) with
    | Some v => exists b, cell_value P c v = Ok b /\ dget str_eqb pairs (cs_name c) = Some b
    | None => dget str_eqb pairs (cs_name c) = None
    end.
Proof.
  intros D. induction items as [|[k v] items IH]; intros R pairs R' H; cbn [write_items] in H.
  - apply Ok_inj in H. injection H as <- <-. split; [reflexivity|]. split; [reflexivity|]. reflexivity.
  - apply bind_ok in H. destruct H as ([x R1] & Hx & H). apply bind_ok in H. destruct H as ([ps R2] & Hy & H). cbn [fst snd] in *. apply Ok_inj in H.
    injection H as <- <-. destruct (write_item_spec _ _ _ _ _ _ _ _ D Hx) as [E1 E2]. destruct (IH _ _ _ Hy) as (I1 & I2 & I3). clear IH.
    split; [|split].
    + cbn [map filter fst]. destruct x as [[k' b]|].
      * destruct E2 as (K & -> & _). rewrite K. cbn [map fst]. rewrite I1. reflexivity.
      * rewrite E2. exact I1.
    + cbn [flat_map]. rewrite add_all_app, <- E1. exact I2.
    + intros c Hc Hm. specialize (I3 c Hc Hm). cbn [dget]. destruct (str_eqb (cs_name c) k) eqn:E.
      * apply str_eqb_eq in E. destruct x as [[k' b]|].
        -- destruct E2 as (K & -> & d & Hd & Ed & Cd). rewrite <- E in Ed. apply (col_inj_name tr s d c D Hd Hc) in Ed. subst d.
           exists b. split; [exact Cd|]. cbn [dget]. rewrite E, str_eqb_refl. reflexivity.
        -- exfalso. unfold kept in E2. rewrite <- E, Hm in E2. unfold has in E2. rewrite (cols_dict_in tr s c D Hc) in E2. discriminate E2.
      * destruct x as [[k' b]|]; [|exact I3]. destruct E2 as (_ & -> & _). cbn [dget]. rewrite E. exact I3.
Qed.
Lemma kept_col s k : cols_distinct tr s -> kept s k = true -> exists d, In d (ts_cols s) /\ cs_name d = k.
Proof.
  intros D H. unfold kept, has in H. apply andb_true_iff in H. destruct H as [_ H]. destruct (dget str_eqb (cols_dict s) k) as [c|] eqn:E; [|discriminate].
  exists c. apply (cols_dict_some tr s k c D E).
Qed.

Lemma dget_combine_bind (pairs : list (pystr * bval)) : forall vals k, mapM (bind_value P) (map snd pairs) = Ok vals ->
  match dget str_eqb pairs k with
  | Some b => exists u, bind_value P b = Ok u /\ dget str_eqb (combine (map fst pairs) vals) k = Some u
  | None => dget str_eqb (combine (map fst pairs) vals) k = None
  end.
Proof.
  induction pairs as [|[k0 b0] pairs IH]; intros vals k H; cbn [map mapM] in H.
  - apply Ok_inj in H. subst vals. reflexivity.
  - apply bind_ok in H. destruct H as (u & Hu & H). apply bind_ok in H. destruct H as (us & Hus & H). apply Ok_inj in H. subst vals.
    cbn [dget map fst combine]. destruct (str_eqb k k0); [exists u; auto|]. apply IH, Hus.
Qed.
Lemma mapM_len {A B} (f : A -> res B) l m : mapM f l = Ok m -> length m = length l.
Proof. intros H. apply mapM_Ok_inv in H. symmetry. eapply Forall2_length, H. Qed.
Lemma Forall2_map_self {A B} (R : A -> B -> Prop) (g : A -> B) l : (forall a, In a l -> R a (g a)) -> Forall2 R l (map g l).
Proof. induction l as [|a l IH]; intros H; [constructor|]. cbn [map]. constructor; [apply H; left; reflexivity|apply IH; intros b Hb; apply H; right; exact Hb]. Qed.
Lemma row_stored_filled skip s pk r R pairs R' vals : cols_distinct tr s -> (forall c, In c (ts_cols s) -> has (ts_m2m s) (cs_name c) = false) ->
  write_items P skip s pk R r = Ok (pairs, R') -> mapM (bind_value P) (map snd pairs) = Ok vals ->
  row_stored P St s r (filled s (combine (map fst pairs) vals)).
Proof.
  intros D M W B. destruct (write_items_spec skip s pk r D R pairs R' W) as (_ & _ & W3).
  unfold row_stored, filled. apply Forall2_map_self. intros c Hc. specialize (W3 c Hc (M c Hc)). pose proof (dget_combine_bind pairs vals (cs_name c) B) as X.
  unfold cell_stored. destruct (dget str_eqb r (cs_name c)) as [pv|].
  - destruct W3 as (b & Cb & Pb). rewrite Pb in X. destruct X as (u & Bu & Xu). rewrite Xu. exists b, u. auto.
  - rewrite W3 in X. rewrite X. reflexivity.
Qed.
End Db.
