(** What is on disk while a database is written (C43). *)
From Coq Require Import QArith Permutation.
From Verif Require Import PyStr Dsv Dec Dates Datatype Column Group Sql Db DbSql DbSqlSpec Sqlite SqliteProofs DbWrite DbWriteSpec.
Open Scope N_scope.

Section Db.
Variable P : py_fns.
Variable St : store_fns.
Variable tr : translator.

(** the disk is not touched, nor is there a new state of it *)
Definition keeps (c c' : conn) : Prop := c_disk c' = c_disk c /\ c_log c' = c_log c /\ (c_work c' = None -> c' = c).
Lemma keeps_refl c : keeps c c.
Proof. split; [|split]; auto. Qed.
Lemma keeps_trans a b c : keeps a b -> keeps b c -> keeps a c.
Proof.
  intros (A1 & A2 & A3) (B1 & B2 & B3). split; [congruence|]. split; [congruence|].
  intros H. pose proof (B3 H). subst c. apply A3, H.
Qed.
Lemma insert_one_keeps c n cols k r : c_work c <> None -> let (c', o) := insert_one P St c n cols k r in keeps c c' /\ c_work c' <> None.
Proof.
  intros H. unfold insert_one.
  match goal with |- let (_, _) := match ?m with _ => _ end in _ => destruct m as [D|e] end; [|split; [apply keeps_refl|exact H]].
  unfold set_current. destruct (c_work c) as [w|] eqn:E; [|contradiction]. split; [|discriminate]. split; [|split]; try reflexivity. discriminate.
Qed.
Lemma insert_all_keeps n cols k rows : forall c, c_work c <> None -> let (c', o) := insert_all P St c n cols k rows in keeps c c' /\ c_work c' <> None.
Proof.
  induction rows as [|r rows IH]; intros c H; cbn [insert_all]; [split; [apply keeps_refl|exact H]|].
  pose proof (insert_one_keeps c n cols k r H) as K. destruct (insert_one P St c n cols k r) as [c1 [u|e]]; [|exact K].
  destruct K as [K1 K2]. specialize (IH c1 K2). destruct (insert_all P St c1 n cols k rows) as [c2 o]. destruct IH as [I1 I2].
  split; [eapply keeps_trans; eassumption|exact I2].
Qed.
Lemma executemany_keeps c sql rows : let (c', o) := executemany P St c sql rows in keeps c c'.
Proof.
  unfold executemany. destruct (parse sql) as [[| n cols k | |]|]; try apply keeps_refl.
  pose proof (insert_all_keeps n cols k rows (begin_ c)) as K. destruct (insert_all P St (begin_ c) n cols k rows) as [c' o].
  destruct K as [(K1 & K2 & _) K3]; [discriminate|]. split; [exact K1|]. split; [exact K2|]. intros E. contradiction.
Qed.
Lemma each_keeps {A} (f : conn -> A -> conn * res unit) l : (forall c x, let (c', o) := f c x in keeps c c') ->
  forall c, let (c', o) := each f c l in keeps c c'.
Proof.
  intros H. induction l as [|x l IH]; intros c; cbn [each]; [apply keeps_refl|]. specialize (H c x).
  destruct (f c x) as [c1 [u|e]]; [|exact H]. specialize (IH c1). destruct (each f c1 l) as [c2 o]. eapply keeps_trans; eassumption.
Qed.
Lemma insert_keeps c table keys rows : let (c', o) := insert P St tr c table keys rows in keeps c c'.
Proof.
  unfold insert. destruct rows as [|r rows]; [apply keeps_refl|]. pose proof (executemany_keeps c (insert_sql tr table keys) (r :: rows)) as K.
  destruct (executemany P St c (insert_sql tr table keys) (r :: rows)) as [c1 [u|e]]; [exact K|].
  pose proof (each_keeps (insert_single P St tr table keys) (r :: rows) (fun c x => executemany_keeps c _ _) c1) as E.
  destruct (each (insert_single P St tr table keys) c1 (r :: rows)) as [c2 o]. eapply keeps_trans; eassumption.
Qed.
Lemma write_table_keeps skip items c R s : let '((c', _), o) := write_table P St tr skip items (c, R) s in keeps c c'.
Proof.
  unfold write_table. destruct (dget str_eqb items (ts_name s)) as [rows|]; [|apply keeps_refl].
  destruct (write_rows P skip s R rows) as [[rs R']|e]; [|apply keeps_refl].
  match goal with |- context [insert P St tr c ?t ?k ?r] => pose proof (insert_keeps c t k r) as K; destruct (insert P St tr c t k r) as [c' o] end. exact K.
Qed.
Lemma write_tables_keeps skip items ts : forall c R, let '((c', _), o) := write_tables P St tr skip items (c, R) ts in keeps c c'.
Proof.
  induction ts as [|s ts IH]; intros c R; cbn [write_tables]; [apply keeps_refl|]. pose proof (write_table_keeps skip items c R s) as K.
  destruct (write_table P St tr skip items (c, R) s) as [[c1 R1] [u|e]]; [|exact K]. specialize (IH c1 R1).
  destruct (write_tables P St tr skip items (c1, R1) ts) as [[c2 R2] o]. eapply keeps_trans; eassumption.
Qed.

(** *** creating the tables *)
Lemma no_new_refl D : no_new_rows D D.
Proof. exists []. split; [symmetry; apply app_nil_r|intros t []]. Qed.
Lemma no_new_trans A B C : no_new_rows A B -> no_new_rows B C -> no_new_rows A C.
Proof.
  intros (n1 & -> & R1) (n2 & -> & R2). exists (n1 ++ n2). split; [rewrite app_assoc; reflexivity|].
  intros t H. apply in_app_or in H. destruct H; [apply R1|apply R2]; assumption.
Qed.
Lemma create_no_new D n cols pk fks D' : create St D n cols pk fks = Ok D' -> no_new_rows D D'.
Proof.
  intros H. apply create_inv in H. destruct H as [[-> _]|(_ & _ & _ & ->)]; [apply no_new_refl|].
  eexists. split; [reflexivity|]. intros t [<-|[]]. reflexivity.
Qed.
Definition creates (c c' : conn) : Prop :=
  idle c' /\ no_new_rows (c_disk c) (c_disk c') /\ exists l, c_log c' = c_log c ++ l /\ Forall (no_new_rows (c_disk c)) l.
Lemma creates_refl c : idle c -> creates c c.
Proof. intros H. split; [exact H|]. split; [apply no_new_refl|]. exists []. split; [symmetry; apply app_nil_r|constructor]. Qed.
Lemma creates_trans a b c : creates a b -> creates b c -> creates a c.
Proof.
  intros (_ & A1 & la & A2 & A3) (B0 & B1 & lb & B2 & B3). split; [exact B0|]. split; [eapply no_new_trans; eassumption|].
  exists (la ++ lb). split; [rewrite B2, A2, app_assoc; reflexivity|]. apply Forall_app. split; [exact A3|].
  eapply Forall_impl; [|exact B3]. intros D H. eapply no_new_trans; eassumption.
Qed.
Lemma execute_creates c sql : idle c -> let (c', o) := execute St c sql in creates c c'.
Proof.
  intros H. unfold execute. destruct (parse sql) as [[n cols pk fks| | |]|]; try (apply creates_refl, H).
  destruct (create St (current c) n cols pk fks) as [D|e] eqn:E; [|apply creates_refl, H].
  apply create_no_new in E. unfold set_current, current, creates, idle in *. rewrite H in *. cbn [c_work c_disk c_log].
  split; [reflexivity|]. split; [exact E|]. exists [c_disk c]. split; [reflexivity|]. constructor; [apply no_new_refl|constructor].
Qed.
Lemma create_all_creates ts : forall c, idle c -> let (c', o) := each (fun c s => execute St c (table_sql tr s)) c ts in creates c c'.
Proof.
  induction ts as [|s ts IH]; intros c H; cbn [each]; [apply creates_refl, H|]. pose proof (execute_creates c (table_sql tr s) H) as K.
  destruct (execute St c (table_sql tr s)) as [c1 [u|e]]; [|exact K]. specialize (IH c1 (proj1 K)).
  destruct (each (fun c s => execute St c (table_sql tr s)) c1 ts) as [c2 o]. eapply creates_trans; eassumption.
Qed.

(** *** the whole *)
Lemma write_conn_disk skip tables items c : idle c ->
  let (c', r) := write_conn P St tr skip tables items c in
  (exists l, c_log c' = c_log c ++ l /\ Forall (no_new_rows (c_disk c)) l) /\
  match r with Ok _ => idle c' | Err _ => no_new_rows (c_disk c) (c_disk c') end.
Proof.
  intros H. unfold write_conn. pose proof (create_all_creates tables c H) as K.
  destruct (each (fun c s => execute St c (table_sql tr s)) c tables) as [c1 [u|e]].
  2: { destruct K as (_ & K1 & K2). auto. }
  destruct K as (I1 & K1 & K2). assert (E : commit c1 = c1) by (unfold commit; rewrite I1; reflexivity). rewrite E.
  pose proof (write_tables_keeps skip items tables c1 ([] : refs)) as W.
  match goal with |- context [write_tables ?a ?b ?c ?d ?e ?f ?g] => change (write_tables a b c d e f g) with (write_tables P St tr skip items (c1, [] : refs) tables) end.
  destruct (write_tables P St tr skip items (c1, [] : refs) tables) as [[c2 R] [u2|e]].
  2: { destruct W as (W1 & W2 & _). rewrite W1, W2. auto. }
  pose proof (each_keeps (fun c (kr : (pystr * list pystr) * list (list bval)) => insert P St tr c (fst (fst kr)) (snd (fst kr)) (snd kr)) R
                (fun c x => insert_keeps c _ _ _) c2) as X.
  destruct (each _ c2 R) as [c3 [u3|e]].
  - pose proof (keeps_trans _ _ _ W X) as (Y1 & Y2 & Y3). unfold commit, idle. destruct (c_work c3) as [D|] eqn:Ew.
    + cbn [c_log c_work c_disk]. split; [|reflexivity]. rewrite Y1, Y2. destruct K2 as (l & L1 & L2). exists (l ++ [c_disk c1]).
      split; [rewrite L1, app_assoc; reflexivity|]. apply Forall_app. split; [exact L2|]. constructor; [exact K1|constructor].
    + rewrite (Y3 eq_refl). auto.
  - pose proof (keeps_trans _ _ _ W X) as (Y1 & Y2 & _). rewrite Y1, Y2. auto.
Qed.
End Db.
