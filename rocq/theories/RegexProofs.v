(** Proofs about Regex.v *)
From Verif Require Import PyStr Dec Basic Regex RegexSpec.

Definition nil_ {A} (l : list A) : bool := match l with [] => true | _ => false end.
Lemma nil_app {A} (a b : list A) : nil_ (a ++ b) = nil_ a && nil_ b. Proof. destruct a, b; reflexivity. Qed.
Section Match.
Variables digit space word : N -> bool.
Notation D := (fun c => digit c = true). Notation S_ := (fun c => space c = true). Notation W := (fun c => word c = true).
Notation den := (den D S_ W). Notation mtch := (mtch digit space word).
Lemma in_class_iff k c : in_class digit space word k c = true <-> class_chars D S_ W k c. Proof. destruct k; reflexivity. Qed.
Lemma in_item_iff i c : in_item digit space word i c = true <-> item_chars D S_ W i c.
Proof.
  destruct i as [lo hi|k [|]]; cbn [in_item item_chars].
  - rewrite andb_true_iff, !N.leb_le. tauto.
  - rewrite <- in_class_iff. destruct (in_class digit space word k c); cbn [xorb negb]; split; intros H; try discriminate; try reflexivity; try congruence.
  - rewrite <- in_class_iff. destruct (in_class digit space word k c); cbn [xorb negb]; tauto.
Qed.
Lemma in_set_iff neg l c : in_set digit space word neg l c = true <-> set_chars D S_ W neg l c.
Proof.
  unfold in_set, set_chars. destruct neg.
  - rewrite xorb_true_l, negb_true_iff. split.
    + intros H i I K. apply in_item_iff in K. rewrite <- not_true_iff_false in H. apply H. apply existsb_exists. exists i. auto.
    + intros H. apply not_true_iff_false. intros K. apply existsb_exists in K. destruct K as (i & I & K). apply (H i I). apply in_item_iff. exact K.
  - rewrite xorb_false_l, existsb_exists. split; intros (i & I & K); exists i; split; try exact I; apply in_item_iff; exact K.
Qed.

Definition spec (r : regex) : Prop := forall b s k, mtch r (nil_ b) s k = true <-> exists w t, s = w ++ t /\ den r b w t /\ k (nil_ (b ++ w)) t = true.
Definition many (r : regex) (k : bool -> pystr -> bool) := fix many (n : nat) (st : bool) (s : pystr) : bool :=
  k st s || match n with O => false | S n => mtch r st s (fun st' s' => (length s' <? length s)%nat && many n st' s') end.
Definition upto (r : regex) (k : bool -> pystr -> bool) := fix upto (n : nat) (st : bool) (s : pystr) : bool :=
  k st s || match n with O => false | S n => mtch r st s (upto n) end.
Definition must (r : regex) (k : bool -> pystr -> bool) := fix must (lo : nat) (st : bool) (s : pystr) : bool :=
  match lo with O => k st s | S lo => mtch r st s (must lo) end.
Lemma mtch_rep r lo more st s k : mtch (RRep r lo more) st s k =
  must r (fun st s => match more with None => many r k (length s) st s | Some h => upto r k h st s end) lo st s.
Proof.
  cbn [Regex.mtch]. fold mtch. unfold must, many, upto. 
  match goal with |- ?f lo st s = ?g lo st s => assert (E : forall l st s, f l st s = g l st s) end; [|apply E].
  assert (Ext : forall r st s k k', (forall st s, k st s = k' st s) -> mtch r st s k = mtch r st s k').
  { clear. intros r. induction r; intros st s k k' E; cbn [Regex.mtch].
    - destruct s as [|c s]; [reflexivity|]. rewrite E. reflexivity.
    - apply E.
    - apply IHr1. intros st' s'. apply IHr2. exact E.
    - f_equal; [apply IHr1|apply IHr2]; exact E.
    - match goal with |- ?f lo st s = ?g lo st s => assert (X : forall l st s, f l st s = g l st s) end; [|apply X].
      induction l as [|l IHl]; intros st' s'; [|apply IHr; intros; apply IHl]. destruct more as [n|].
      + revert st' s'. induction n as [|n IHn]; intros st' s'; rewrite E; [reflexivity|]. f_equal. apply IHr. intros; apply IHn.
      + generalize (length s'). intros n. revert st' s'. induction n as [|n IHn]; intros st' s'; rewrite E; [reflexivity|]. f_equal. apply IHr. intros st2 s2. f_equal. apply IHn.
    - f_equal. apply E.
    - destruct s as [|c [|? ?]]; [apply E|f_equal; apply E|reflexivity]. }
  induction l as [|l IHl]; intros st' s'; [reflexivity|]. apply Ext. intros; apply IHl.
Qed.
Lemma must_spec r k P : spec r -> (forall b s, k (nil_ b) s = true <-> P b s) -> forall lo b s,
  must r k lo (nil_ b) s = true <-> exists w t, s = w ++ t /\ times (den r) lo b w t /\ P (b ++ w) t.
Proof.
  intros Sp K. induction lo as [|lo IH]; intros b s; cbn [must times].
  - rewrite K. split; [intros H; exists [], s; rewrite app_nil_r; auto|]. intros (w & t & -> & -> & H). rewrite app_nil_r in H. exact H.
  - rewrite (Sp b s). split.
    + intros (w & t & -> & H & M). apply IH in M. destruct M as (w' & t' & -> & M & H'). exists (w ++ w'), t'. rewrite <- app_assoc. split; [reflexivity|]. split; [exists w, w'; auto|]. rewrite app_assoc. exact H'.
    + intros (w & t & -> & (w1 & w2 & -> & H1 & H2) & H). exists w1, (w2 ++ t). rewrite <- app_assoc. split; [reflexivity|]. split; [exact H1|]. apply IH. exists w2, t. split; [reflexivity|]. split; [exact H2|]. rewrite <- app_assoc. exact H.
Qed.
Lemma upto_spec r k : spec r -> forall n b s, upto r k n (nil_ b) s = true <-> exists w t m, s = w ++ t /\ (m <= n)%nat /\ times (den r) m b w t /\ k (nil_ (b ++ w)) t = true.
Proof.
  intros Sp. induction n as [|n IH]; intros b s; cbn [upto]; rewrite orb_true_iff.
  - split.
    + intros [H|H]; [|discriminate]. exists [], s, O. rewrite app_nil_r. cbn [times]. auto.
    + intros (w & t & m & -> & Hm & H & K). assert (m = O) as -> by lia. cbn [times] in H. subst w. rewrite app_nil_r in K. left; exact K.
  - rewrite (Sp b s). split.
    + intros [H|(w & t & -> & H & K)]; [exists [], s, O; rewrite app_nil_r; cbn [times]; repeat split; [lia|exact H]|]. apply IH in K. destruct K as (w' & t' & m & -> & Hm & T & K). exists (w ++ w'), t', (S m). rewrite <- app_assoc. split; [reflexivity|]. split; [lia|]. split; [exists w, w'; auto|]. rewrite app_assoc. exact K.
    + intros (w & t & m & -> & Hm & H & K). destruct m as [|m]; cbn [times] in H.
      * subst w. rewrite app_nil_r in K. left; exact K.
      * destruct H as (w1 & w2 & -> & H1 & H2). right. exists w1, (w2 ++ t). rewrite <- app_assoc. split; [reflexivity|]. split; [exact H1|]. apply IH. exists w2, t, m. split; [reflexivity|]. split; [lia|]. split; [exact H2|]. rewrite <- app_assoc. exact K.
Qed.
Lemma many_spec r k : spec r -> forall n b s, (length s <= n)%nat -> many r k n (nil_ b) s = true <-> exists w t m, s = w ++ t /\ times (den r) m b w t /\ k (nil_ (b ++ w)) t = true.
Proof.
  intros Sp. induction n as [|n IH]; intros b s L; cbn [many]; rewrite orb_true_iff.
  - assert (s = []) as -> by (destruct s; [reflexivity|cbn [length] in L; lia]). split.
    + intros [H|H]; [|discriminate]. exists [], [], O. rewrite !app_nil_r. cbn [times]. auto.
    + intros (w & t & m & E & H & K). symmetry in E. apply app_eq_nil in E. destruct E as [-> ->]. rewrite app_nil_r in K. left; exact K.
  - rewrite (Sp b s). split.
    + intros [H|(w & t & -> & H & K)]; [exists [], s, O; rewrite app_nil_r; cbn [times]; auto|]. apply andb_true_iff in K. destruct K as [Lt K]. apply Nat.ltb_lt in Lt. apply IH in K; [|lia].
      destruct K as (w' & t' & m & -> & T & K). exists (w ++ w'), t', (S m). rewrite <- app_assoc. split; [reflexivity|]. split; [exists w, w'; auto|]. rewrite app_assoc. exact K.
    + intros (w & t & m & -> & H & K). revert b w H K L. induction m as [|m IHm]; intros b w H K L; cbn [times] in H.
      * subst w. rewrite app_nil_r in K. left; exact K.
      * destruct H as (w1 & w2 & -> & H1 & H2). destruct w1 as [|c w1].
        -- rewrite app_nil_r in H2. cbn [app] in *. apply (IHm b w2 H2 K L).
        -- right. exists (c :: w1), (w2 ++ t). rewrite <- app_assoc. split; [reflexivity|]. split; [exact H1|]. apply andb_true_iff. rewrite !app_length in *. cbn [length] in *. split; [apply Nat.ltb_lt; lia|].
           apply IH; [rewrite app_length; lia|]. exists w2, t, m. split; [reflexivity|]. split; [exact H2|]. rewrite <- app_assoc. exact K.
Qed.
Lemma times_split P : forall n m b w t, times P (n + m) b w t <-> exists w1 w2, w = w1 ++ w2 /\ times P n b w1 (w2 ++ t) /\ times P m (b ++ w1) w2 t.
Proof.
  induction n as [|n IH]; intros m b w t; cbn [Nat.add times].
  - split; [intros H; exists [], w; rewrite app_nil_r; auto|]. intros (w1 & w2 & -> & -> & H). rewrite app_nil_r in H. exact H.
  - split.
    + intros (w1 & w2 & -> & H & T). apply IH in T. destruct T as (u1 & u2 & -> & T1 & T2). exists (w1 ++ u1), u2. rewrite app_assoc. split; [reflexivity|]. rewrite <- app_assoc in H. split; [exists w1, u1; auto|]. rewrite app_assoc. exact T2.
    + intros (w1 & w2 & -> & (u1 & u2 & -> & H & T1) & T2). exists u1, (u2 ++ w2). rewrite <- !app_assoc. split; [reflexivity|]. split; [exact H|]. apply IH. exists u2, w2. split; [reflexivity|]. split; [exact T1|]. rewrite <- app_assoc. exact T2.
Qed.
Theorem mtch_spec : forall r, spec r.
Proof.
  induction r as [neg l| |r1 IH1 r2 IH2|r1 IH1 r2 IH2|r IH lo more| |]; intros b s k; cbn [RegexSpec.den]; (match goal with |- context [RRep _ _ _] => idtac | _ => cbn [Regex.mtch] end).
  - split.
    + destruct s as [|c s]; [discriminate|]. intros H. apply andb_true_iff in H. destruct H as [H K]. apply in_set_iff in H. exists [c], s. split; [reflexivity|]. split; [exists c; auto|]. rewrite nil_app. cbn [nil_]. rewrite andb_false_r. exact K.
    + intros (w & t & -> & (c & -> & H) & K). cbn [app]. apply in_set_iff in H. rewrite H. rewrite nil_app in K. cbn [nil_] in K. rewrite andb_false_r in K. exact K.
  - split; [intros H; exists [], s; rewrite app_nil_r; auto|]. intros (w & t & -> & -> & K). rewrite app_nil_r in K. exact K.
  - rewrite (IH1 b s). split.
    + intros (w & t & -> & H1 & K). apply IH2 in K. destruct K as (w' & t' & -> & H2 & K). exists (w ++ w'), t'. rewrite <- app_assoc. split; [reflexivity|]. split; [exists w, w'; auto|]. rewrite app_assoc. exact K.
    + intros (w & t & -> & (w1 & w2 & -> & H1 & H2) & K). exists w1, (w2 ++ t). rewrite <- app_assoc. split; [reflexivity|]. split; [exact H1|]. apply IH2. exists w2, t. split; [reflexivity|]. split; [exact H2|]. rewrite <- app_assoc. exact K.
  - rewrite orb_true_iff, (IH1 b s k), (IH2 b s k). split.
    + intros [(w & t & E & H & K)|(w & t & E & H & K)]; exists w, t; auto.
    + intros (w & t & E & [H|H] & K); [left|right]; exists w, t; auto.
  - rewrite mtch_rep. destruct more as [h|].
    + rewrite (must_spec r _ _ IH (fun b s => upto_spec r k IH h b s)). split.
      * intros (w & t & -> & T & (w' & t' & m & -> & Hm & T' & K)). exists (w ++ w'), t'. rewrite <- app_assoc. split; [reflexivity|]. split; [|rewrite app_assoc; exact K]. exists m. split; [exact Hm|]. apply times_split. exists w, w'. auto.
      * intros (w & t & -> & (m & Hm & T) & K). apply times_split in T. destruct T as (w1 & w2 & -> & T1 & T2). exists w1, (w2 ++ t). rewrite <- app_assoc. split; [reflexivity|]. split; [exact T1|]. exists w2, t, m. rewrite <- app_assoc. auto.
    + rewrite (must_spec r _ _ IH (fun b s => many_spec r k IH (length s) b s (le_n _))). split.
      * intros (w & t & -> & T & (w' & t' & m & -> & T' & K)). exists (w ++ w'), t'. rewrite <- app_assoc. split; [reflexivity|]. split; [|rewrite app_assoc; exact K]. exists m. split; [exact I|]. apply times_split. exists w, w'. auto.
      * intros (w & t & -> & (m & Hm & T) & K). apply times_split in T. destruct T as (w1 & w2 & -> & T1 & T2). exists w1, (w2 ++ t). rewrite <- app_assoc. split; [reflexivity|]. split; [exact T1|]. exists w2, t, m. rewrite <- app_assoc. auto.
  - split.
    + intros H. apply andb_true_iff in H. destruct H as [B K]. exists [], s. rewrite app_nil_r. destruct b; [auto|discriminate B].
    + intros (w & t & -> & (-> & ->) & K). exact K.
  - split.
    + destruct s as [|c [|d s]]; [| |discriminate]; intros H.
      * exists [], []. rewrite !app_nil_r. auto.
      * apply andb_true_iff in H. destruct H as [C K]. apply N.eqb_eq in C. subst c. exists [], [10]. rewrite app_nil_r. auto.
    + intros (w & t & -> & (-> & [-> | ->]) & K); rewrite app_nil_r in K; exact K.
Qed.
(** regex.match, stated without continuations *)
Theorem re_match_spec : forall r v, re_match digit space word r v = true <-> exists w t, v = w ++ t /\ den r [] w t.
Proof.
  intros r v. unfold re_match. pose proof (mtch_spec r [] v (fun _ _ => true)) as M. cbn [nil_] in M. rewrite M. split; [intros (w & t & E & H & _)|intros (w & t & E & H)]; exists w, t; auto.
Qed.
End Match.
