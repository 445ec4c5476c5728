(** What rows a successful write inserts (C39, C43). *)
From Coq Require Import QArith Permutation.
From Verif Require Import PyStr Dsv Dec Dates Datatype Column Group Sql Db DbSql DbSqlSpec Sqlite SqliteProofs DbWrite DbWriteSpec DbWriteProofs.
Open Scope N_scope.

Section Db.
Variable P : py_fns.
Variable St : store_fns.
Variable tr : translator.

Definition ins (D : db) (n : pystr) (cols : list pystr) (k : nat) (r : list bval) : res db :=
  vals <- mapM (bind_value P) r ;; if Nat.eqb (length vals) k then insert_row St D n cols vals else Err OtherError.
Lemma insert_one_eq c n cols k r : insert_one P St c n cols k r =
  match ins (current c) n cols k r with Ok D => (set_current c D, Ok tt) | Err e => (c, Err e) end.
Proof. reflexivity. Qed.
Lemma current_set c D : current (set_current c D) = D.
Proof. unfold set_current, current. destruct (c_work c); reflexivity. Qed.
Lemma current_begin c : current (begin_ c) = current c.
Proof. reflexivity. Qed.
Lemma current_commit c : current (commit c) = current c.
Proof. unfold commit, current. destruct (c_work c) eqn:E; [reflexivity|]. rewrite E. reflexivity. Qed.

Lemma ins_inv D n cols k r D' : ins D n cols k r = Ok D' ->
  exists vals t x, mapM (bind_value P) r = Ok vals /\ length vals = k /\ length vals = length cols /\ find_table n D = Some t /\
  forallb (has_col (col_names t)) cols = true /\ new_row St D t (fill St t cols vals) = Ok x /\ D' = add_rows n [x] D.
Proof.
  unfold ins. intros H. apply bind_ok in H. destruct H as (vals & B & H). destruct (Nat.eqb (length vals) k) eqn:E; [|discriminate].
  apply Nat.eqb_eq in E. apply insert_row_inv in H. destruct H as (t & x & F & C & L & N & ->). exists vals, t, x. auto 10.
Qed.
Lemma new_row_same D t r0 r : numbered t r0 -> new_row St D t r0 = Ok r -> r = r0.
Proof.
  unfold new_row. intros Nu H. apply bind_ok in H. destruct H as (r1 & N & H). apply (number_given _ _ _ Nu) in N. subst r1.
  destruct (negb (not_null_ok t r0)); [discriminate|]. destruct (negb (checks_ok St t r0)); [discriminate|]. destruct (negb (unique_ok t r0)); [discriminate|].
  apply bind_ok in H. destruct H as (u & _ & H). apply Ok_inj in H. auto.
Qed.

Lemma new_row_unique D t r0 r : numbered t r0 -> new_row St D t r0 = Ok r -> unique_ok t r0 = true.
Proof.
  unfold new_row. intros Nu H. apply bind_ok in H. destruct H as (r1 & N & H). apply (number_given _ _ _ Nu) in N. subst r1.
  destruct (negb (not_null_ok t r0)); [discriminate|]. destruct (negb (checks_ok St t r0)); [discriminate|].
  destruct (unique_ok t r0); [reflexivity|discriminate H].
Qed.
(** rows that may be added one after another, as for their primary keys *)
Fixpoint added_unique (t : table) (rows : list row) : Prop :=
  match rows with [] => True | r :: rest => unique_ok t r = true /\ added_unique (with_rows t (tb_rows t ++ [r])) rest end.

(** every row gives a value for the integer primary key, if there is one *)
Definition all_numbered (t : table) (cols : list pystr) (rows : list (list bval)) : Prop :=
  forall r vals, In r rows -> mapM (bind_value P) r = Ok vals -> numbered t (fill St t cols vals).
Lemma find_with n D t rows : find_table n D = Some t -> find_table n (add_rows n rows D) = Some (with_rows t (tb_rows t ++ rows)).
Proof. intros H. rewrite (find_add_same n rows D n (same_name_refl n)), H. reflexivity. Qed.
Lemma insert_all_ok n cols k rows : forall c c' t, find_table n (current c) = Some t -> all_numbered t cols rows ->
  insert_all P St c n cols k rows = (c', Ok tt) ->
  exists vss, mapM (mapM (bind_value P)) rows = Ok vss /\ Forall (fun v => length v = length cols) vss /\
  current c' = add_rows n (map (fill St t cols) vss) (current c) /\ added_unique t (map (fill St t cols) vss).
Proof.
  induction rows as [|r rows IH]; intros c c' t F Nu H; cbn [insert_all] in H.
  - injection H as <-. exists []. split; [reflexivity|]. split; [constructor|]. split; [symmetry; apply add_rows_nil|exact I].
  - rewrite insert_one_eq in H. destruct (ins (current c) n cols k r) as [D|e] eqn:E; [|discriminate H].
    apply ins_inv in E. destruct E as (vals & t' & x & B & _ & L & F' & C & N & ->). rewrite F in F'. injection F' as <-.
    pose proof (new_row_unique _ _ _ _ (Nu r vals (or_introl eq_refl) B) N) as U. apply new_row_same in N; [|apply (Nu r vals (or_introl eq_refl) B)]. subst x.
    specialize (IH (set_current c (add_rows n [fill St t cols vals] (current c))) c' (with_rows t (tb_rows t ++ [fill St t cols vals]))).
    rewrite current_set in IH. specialize (IH (find_with _ _ _ _ F) (fun r vs Hr => Nu r vs (or_intror Hr)) H). destruct IH as (vss & M & Fl & E & U').
    exists (vals :: vss). split; [cbn [mapM]; rewrite B; cbn [bind]; rewrite M; reflexivity|]. split; [constructor; assumption|].
    split; [rewrite E, add_rows_app; reflexivity|]. cbn [map added_unique]. split; [exact U|exact U'].
Qed.
Lemma insert_all_err n cols k rows : forall c c' t e, find_table n (current c) = Some t -> all_numbered t cols rows ->
  insert_all P St c n cols k rows = (c', Err e) ->
  exists pre x post vss, rows = pre ++ x :: post /\ mapM (mapM (bind_value P)) pre = Ok vss /\
  current c' = add_rows n (map (fill St t cols) vss) (current c) /\ ins (current c') n cols k x = Err e.
Proof.
  induction rows as [|r rows IH]; intros c c' t e F Nu H; cbn [insert_all] in H; [discriminate H|].
  rewrite insert_one_eq in H. destruct (ins (current c) n cols k r) as [D|e'] eqn:E.
  - apply ins_inv in E. destruct E as (vals & t' & x & B & _ & L & F' & C & N & ->). rewrite F in F'. injection F' as <-.
    apply new_row_same in N; [|apply (Nu r vals (or_introl eq_refl) B)]. subst x.
    specialize (IH (set_current c (add_rows n [fill St t cols vals] (current c))) c' (with_rows t (tb_rows t ++ [fill St t cols vals])) e).
    rewrite current_set in IH. specialize (IH (find_with _ _ _ _ F) (fun r vs Hr => Nu r vs (or_intror Hr)) H). destruct IH as (pre & x & post & vss & -> & M & E1 & E2).
    exists (r :: pre), x, post, (vals :: vss). split; [reflexivity|]. split; [cbn [mapM]; rewrite B; cbn [bind]; rewrite M; reflexivity|]. split; [|exact E2].
    rewrite E1, add_rows_app. reflexivity.
  - injection H as <- <-. exists [], r, rows, []. split; [reflexivity|]. split; [reflexivity|]. split; [|exact E]. symmetry. apply add_rows_nil.
Qed.
Lemma ins_fewer D n rs cols k r D' t : find_table n D = Some t -> incl rs (tb_rows t) ->
  (forall vals, mapM (bind_value P) r = Ok vals -> numbered t (fill St t cols vals)) ->
  ins (add_rows n rs D) n cols k r = Ok D' -> exists D2, ins D n cols k r = Ok D2.
Proof.
  intros F Ns Nu. unfold ins. destruct (mapM (bind_value P) r) as [vals|e]; [|discriminate]. cbn [bind]. destruct (Nat.eqb (length vals) k); [|discriminate].
  intros H. destruct (insert_row_fewer St D n rs cols vals D' t F Ns (Nu vals eq_refl) H) as [x X]. eauto.
Qed.
(** repeating the rows after an error gives an error again: the rows before it are the same *)
Lemma each_single_ok table keys n cols k rows : parse (insert_sql tr table keys) = Some (SInsert n cols k) ->
  forall c c' t, find_table n (current c) = Some t -> all_numbered t cols rows ->
  each (insert_single P St tr table keys) c rows = (c', Ok tt) ->
  forall pre x post vss, rows = pre ++ x :: post -> mapM (mapM (bind_value P)) pre = Ok vss ->
  exists D2, ins (add_rows n (map (fill St t cols) vss) (current c)) n cols k x = Ok D2.
Proof.
  intros Hp. induction rows as [|r rows IH]; intros c c' t F Nu H pre x post vss E M; [destruct pre; discriminate E|].
  cbn [each] in H. unfold insert_single at 1, executemany in H. rewrite Hp in H. cbn [insert_all] in H. rewrite insert_one_eq, current_begin in H.
  destruct (ins (current c) n cols k r) as [D|e] eqn:Ei; [|discriminate H].
  destruct pre as [|y pre]; injection E as -> E.
  - apply Ok_inj in M. subst vss. exists D. cbn [map]. rewrite add_rows_nil. exact Ei.
  - pose proof Ei as Ej. apply ins_inv in Ej. destruct Ej as (vals & t' & z & B & _ & L & F' & C & N & ->). rewrite F in F'. injection F' as <-.
    apply new_row_same in N; [|apply (Nu y vals (or_introl eq_refl) B)]. subst z.
    cbn [mapM] in M. rewrite B in M. cbn [bind] in M. apply bind_ok in M. destruct M as (vss' & M & M'). apply Ok_inj in M'. subst vss.
    specialize (IH (set_current (begin_ c) (add_rows n [fill St t cols vals] (current c))) c' (with_rows t (tb_rows t ++ [fill St t cols vals]))). rewrite current_set in IH.
    destruct (IH (find_with _ _ _ _ F) (fun r vs Hr => Nu r vs (or_intror Hr)) H pre x post vss' E M) as (D2 & X).
    rewrite add_rows_app in X. eauto.
Qed.
Lemma executemany_eq c table keys n cols k rows : parse (insert_sql tr table keys) = Some (SInsert n cols k) ->
  executemany P St c (insert_sql tr table keys) rows = insert_all P St (begin_ c) n cols k rows.
Proof. intros H. unfold executemany. rewrite H. reflexivity. Qed.
Lemma insert_ok c c' table keys rows n cols k t :
  parse (insert_sql tr table keys) = Some (SInsert n cols k) -> find_table n (current c) = Some t -> all_numbered t cols rows ->
  insert P St tr c table keys rows = (c', Ok tt) ->
  exists vss, mapM (mapM (bind_value P)) rows = Ok vss /\ Forall (fun v => length v = length cols) vss /\
  current c' = add_rows n (map (fill St t cols) vss) (current c) /\ added_unique t (map (fill St t cols) vss).
Proof.
  intros Hp F Nu H. unfold insert in H. destruct rows as [|r rows].
  - injection H as <-. exists []. split; [reflexivity|]. split; [constructor|]. split; [symmetry; apply add_rows_nil|exact I].
  - rewrite (executemany_eq _ _ _ _ _ _ _ Hp) in H. destruct (insert_all P St (begin_ c) n cols k (r :: rows)) as [c1 [[]|e]] eqn:E.
    + injection H as <-. apply (insert_all_ok n cols k (r :: rows) (begin_ c) c1 t F Nu E).
    + exfalso. destruct (insert_all_err n cols k (r :: rows) (begin_ c) c1 t e F Nu E) as (pre & x & post & vss & Er & M & Ec & Ex).
      rewrite current_begin in Ec. set (rs := map (fill St t cols) vss) in *.
      assert (F1 : find_table n (current c1) = Some (with_rows t (tb_rows t ++ rs))) by (rewrite Ec; apply find_with, F).
      destruct (each_single_ok table keys n cols k (r :: rows) Hp c1 c' _ F1 (fun q vs Hq => Nu q vs Hq) H pre x post vss Er M) as (D2 & X).
      destruct (ins_fewer (current c1) n rs cols k x D2 _ F1) as [D3 Y]; [| |exact X|congruence].
      * intros z Hz. cbn [tb_rows with_rows]. apply in_or_app. right. exact Hz.
      * intros vals B. apply (Nu x vals); [rewrite Er; apply in_or_app; right; left; reflexivity|exact B].
Qed.
(** without a usable statement nothing is inserted *)
Lemma insert_bad c c' table keys rows : (forall n cols k, parse (insert_sql tr table keys) <> Some (SInsert n cols k)) ->
  insert P St tr c table keys rows = (c', Ok tt) -> rows = [].
Proof.
  intros N H. destruct rows as [|r rows]; [reflexivity|]. exfalso. unfold insert in H.
  assert (X : forall c rows, exists e, executemany P St c (insert_sql tr table keys) rows = (c, Err e)).
  { intros c0 rs. unfold executemany. destruct (parse (insert_sql tr table keys)) as [[| n cols k | |]|]; try (exists OtherError; reflexivity).
    exfalso. apply (N n cols k eq_refl). }
  destruct (X c (r :: rows)) as [e E]. rewrite E in H. cbn [each] in H. unfold insert_single in H at 1. destruct (X c [r]) as [e2 E2]. rewrite E2 in H. discriminate H.
Qed.
End Db.
