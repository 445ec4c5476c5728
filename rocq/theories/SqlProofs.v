(** Lexing SQL text piece by piece. *)
From Verif Require Import PyStr Dec DecProofs Sql DbSqlSpec.

Lemma run_app a : forall st b, run st (a ++ b) =
  (fst (run st a) ++ fst (run (snd (run st a)) b), snd (run (snd (run st a)) b)).
Proof.
  induction a as [|c a IH]; intros st b; cbn [app run].
  - cbn [fst snd app]. destruct (run st b). reflexivity.
  - destruct (step st c) as [t st']. rewrite IH. destruct (run st' a) as [t' st'']. cbn [fst snd]. rewrite app_assoc. reflexivity.
Qed.

(** the text [s] consists of the tokens [ts]; [st]: the state after it *)
Definition L (s : pystr) (ts : list tok) (st : lstate) : Prop := lex s = ts /\ final s = st.
(** the text [b] does not go on with the token under way in state [st] *)
Definition brk (st : lstate) (b : pystr) : bool := match b with [] => match st with LStart => true | _ => false end | c :: _ => breaks st c end.
Lemma step_break st c : breaks st c = true -> step st c = (flush st ++ fst (start c), snd (start c)).
Proof. intros H. unfold step. rewrite H. destruct (start c). reflexivity. Qed.
Lemma L_app a ta sa b tb sb : L a ta sa -> L b tb sb -> brk sa b = true -> L (a ++ b) (ta ++ tb) sb.
Proof.
  unfold L, lex, final. intros [A1 A2] [B1 B2] H. rewrite run_app, A2.
  destruct (run LStart a) as [t s] eqn:Ea. cbn [fst snd] in *. subst s ta. destruct b as [|c b].
  - destruct sa; try discriminate H. cbn [run fst snd flush] in *. subst. rewrite !app_nil_r. auto.
  - cbn [brk] in H. cbn [run] in *. rewrite (step_break sa c H). rewrite (step_break LStart c eq_refl) in B1, B2. cbn [flush app fst snd] in *.
    destruct (start c) as [t1 s1]. cbn [fst snd] in *. destruct (run s1 b) as [t2 s2]. cbn [fst snd] in *. subst. rewrite <- !app_assoc. auto.
Qed.
Lemma L_nil : L [] [] LStart.
Proof. split; reflexivity. Qed.

Lemma run_id n : forall acc, ~ In BT n -> run (LId acc) n = ([], LId (acc ++ n)).
Proof.
  induction n as [|c n IH]; intros acc H; cbn [run]; [rewrite app_nil_r; reflexivity|].
  assert (Hc : (c =? BT) = false) by (apply N.eqb_neq; intros E; apply H; left; exact E).
  unfold step. cbn [breaks]. rewrite Hc. rewrite IH by (intros X; apply H; right; exact X). cbn [app]. rewrite <- app_assoc. reflexivity.
Qed.
Lemma run_str n : forall acc, ~ In QT n -> run (LStr acc) n = ([], LStr (acc ++ n)).
Proof.
  induction n as [|c n IH]; intros acc H; cbn [run]; [rewrite app_nil_r; reflexivity|].
  assert (Hc : (c =? QT) = false) by (apply N.eqb_neq; intros E; apply H; left; exact E).
  unfold step. cbn [breaks]. rewrite Hc. rewrite IH by (intros X; apply H; right; exact X). cbn [app]. rewrite <- app_assoc. reflexivity.
Qed.
(** a quoted name without backtick *)
Lemma L_bt n : ~ In BT n -> L (BT :: n ++ [BT]) [TId n] (LTick n).
Proof.
  intros H. unfold L, lex, final. cbn [run]. change (step LStart BT) with (@nil tok, LId []). cbv iota beta.
  rewrite run_app, (run_id n [] H). cbn [fst snd app]. cbn [run]. change (step (LId n) BT) with (@nil tok, LTick n). cbn [run app fst snd]. auto.
Qed.
Lemma L_str n : ~ In QT n -> L (QT :: n ++ [QT]) [TStr n] (LQuote n).
Proof.
  intros H. unfold L, lex, final. cbn [run]. change (step LStart QT) with (@nil tok, LStr []). cbv iota beta.
  rewrite run_app, (run_str n [] H). cbn [fst snd app]. cbn [run]. change (step (LStr n) QT) with (@nil tok, LQuote n). cbn [run app fst snd]. auto.
Qed.

(** numbers *)
Lemma run_num s : forall acc, num_tail acc s = true -> run (LNum acc) s = ([], LNum (acc ++ s)).
Proof.
  induction s as [|c s IH]; intros acc H; cbn [run]; [rewrite app_nil_r; reflexivity|]. cbn [num_tail] in H. apply andb_true_iff in H. destruct H as [H1 H2].
  unfold step. cbn [breaks]. rewrite H1. cbn [negb]. rewrite (IH _ H2). cbn [app]. rewrite <- app_assoc. reflexivity.
Qed.
Lemma start_digit c : is_digit c = true -> start c = ([], LNum [c]).
Proof.
  intros H. unfold start. rewrite H. unfold is_digit in H. apply andb_true_iff in H. destruct H as [H1 H2]. apply N.leb_le in H1, H2.
  unfold BT, QT. repeat match goal with |- context [N.eqb c ?k] => replace (N.eqb c k) with false by (symmetry; apply N.eqb_neq; lia) end. reflexivity.
Qed.
Lemma L_num s : is_number s = true -> L s [TNum s] (LNum s).
Proof.
  destruct s as [|c s]; intros H; [discriminate H|]. cbn [is_number] in H. apply andb_true_iff in H. destruct H as [H1 H2].
  unfold L, lex, final. cbn [run]. unfold step. cbn [breaks flush app]. rewrite (start_digit c H1). rewrite (run_num s [c] H2). cbn [fst snd app flush]. auto.
Qed.
Lemma digits_number s : s <> [] -> all_digits s = true -> is_number s = true.
Proof.
  destruct s as [|c s]; intros N H; [contradiction|]. cbn [all_digits forallb] in H. apply andb_true_iff in H. destruct H as [H1 H2]. cbn [is_number]. rewrite H1. cbn [andb].
  generalize [c]. clear - H2. induction s as [|d s IH]; intros acc; [reflexivity|]. cbn [forallb] in H2. apply andb_true_iff in H2. destruct H2 as [D H2].
  cbn [num_tail]. unfold num_char, word_char. rewrite D. rewrite orb_true_r. cbn [orb andb]. apply IH, H2.
Qed.
