(** Composite foreign keys (C38). *)
From Coq Require Import Sorted Permutation Lia.
From Verif Require Import PyStr Dsv Group GroupProofs1 Db DbSpec.

Lemma str_cmp_refl a : str_cmp a a = Eq.
Proof. induction a as [|x a IH]; [reflexivity|]. cbn [str_cmp]. rewrite N.compare_refl. exact IH. Qed.
Lemma str_cmp_opp a : forall b, str_cmp b a = CompOpp (str_cmp a b).
Proof.
  induction a as [|x a IH]; intros [|y b]; try reflexivity. cbn [str_cmp]. rewrite (N.compare_antisym x y).
  destruct (N.compare x y); cbn [CompOpp]; auto.
Qed.
Lemma str_lt_trans a : forall b c, str_cmp a b = Lt -> str_cmp b c = Lt -> str_cmp a c = Lt.
Proof.
  induction a as [|x a IH]; intros [|y b] [|z c] H1 H2; try discriminate; try reflexivity. cbn [str_cmp] in *.
  destruct (N.compare_spec x y) as [->|L1|L1]; try discriminate H1.
  - destruct (N.compare_spec y z) as [->|L2|L2]; try discriminate H2; auto. eapply IH; eassumption.
  - destruct (N.compare_spec y z) as [->|L2|L2]; try discriminate H2.
    + destruct (N.compare_spec x z); try lia; reflexivity.
    + destruct (N.compare_spec x z); try lia; reflexivity.
Qed.
Definition str_lt (a b : pystr) : Prop := str_cmp a b = Lt.
Definition str_le (a b : pystr) : Prop := str_cmp a b <> Gt.
Lemma str_le_lt a b : str_le a b -> a <> b -> str_lt a b.
Proof. unfold str_le, str_lt. destruct (str_cmp a b) eqn:E; [|auto|contradiction]. intros _ H. elim H. apply str_cmp_eq, E. Qed.
Lemma str_lt_irrefl a : ~ str_lt a a.
Proof. unfold str_lt. rewrite str_cmp_refl. discriminate. Qed.
Lemma str_le_trans a b c : str_le a b -> str_le b c -> str_le a c.
Proof.
  intros H1 H2. destruct (str_eq_dec a b) as [->|N1]; [exact H2|]. destruct (str_eq_dec b c) as [<-|N2]; [exact H1|].
  unfold str_le. rewrite (str_lt_trans a b c); [discriminate| |]; apply str_le_lt; assumption.
Qed.

Lemma insert_str_perm x l : Permutation (insert_str x l) (x :: l).
Proof.
  induction l as [|y l IH]; [apply Permutation_refl|]. cbn [insert_str]. destruct (str_cmp x y); try apply Permutation_refl.
  eapply Permutation_trans; [apply perm_skip, IH|apply perm_swap].
Qed.
Lemma sort_strs_perm l : Permutation (sort_strs l) l.
Proof. induction l as [|x l IH]; [apply perm_nil|]. eapply Permutation_trans; [apply insert_str_perm|apply perm_skip, IH]. Qed.
Lemma insert_str_sorted x l : StronglySorted str_le l -> StronglySorted str_le (insert_str x l).
Proof.
  intros H. induction H as [|y l S IH F]; [repeat constructor|]. cbn [insert_str]. destruct (str_cmp x y) eqn:E.
  - constructor; [constructor; assumption|]. constructor; [unfold str_le; rewrite E; discriminate|].
    apply Forall_forall. intros z Hz. rewrite Forall_forall in F. eapply str_le_trans; [unfold str_le; rewrite E; discriminate|apply F, Hz].
  - constructor; [constructor; assumption|]. constructor; [unfold str_le; rewrite E; discriminate|].
    apply Forall_forall. intros z Hz. rewrite Forall_forall in F. eapply str_le_trans; [unfold str_le; rewrite E; discriminate|apply F, Hz].
  - constructor; [exact IH|]. apply Forall_forall. intros z Hz. eapply Permutation_in in Hz; [|apply insert_str_perm].
    destruct Hz as [<-|Hz]; [unfold str_le; rewrite str_cmp_opp, E; discriminate|]. rewrite Forall_forall in F. apply F, Hz.
Qed.
Lemma sort_strs_sorted l : StronglySorted str_le (sort_strs l).
Proof. induction l as [|x l IH]; [constructor|]. apply insert_str_sorted, IH. Qed.

Lemma ss_strict l : NoDup l -> StronglySorted str_le l -> StronglySorted str_lt l.
Proof.
  intros N S. induction S as [|x l S IH F]; [constructor|]. apply NoDup_cons_iff in N. destruct N as [N1 N2]. constructor; [apply IH, N2|].
  apply Forall_forall. intros y Hy. rewrite Forall_forall in F. apply str_le_lt; [apply F, Hy|]. intros ->. contradiction.
Qed.
Lemma sort_strs_strict l : NoDup l -> StronglySorted str_lt (sort_strs l).
Proof. intros N. apply ss_strict; [|apply sort_strs_sorted]. eapply Permutation_NoDup; [apply Permutation_sym, sort_strs_perm|exact N]. Qed.

(** strictly sorted lists with the same elements are equal *)
Lemma strict_unique l : forall l', StronglySorted str_lt l -> StronglySorted str_lt l' -> (forall x, In x l <-> In x l') -> l = l'.
Proof.
  induction l as [|x l IH]; intros [|x' l'] S S' E.
  - reflexivity.
  - destruct (proj2 (E x') (or_introl eq_refl)).
  - destruct (proj1 (E x) (or_introl eq_refl)).
  - apply StronglySorted_inv in S, S'. destruct S as [S F], S' as [S' F']. rewrite Forall_forall in F, F'.
    assert (x = x').
    { destruct (proj1 (E x) (or_introl eq_refl)) as [->|H]; [reflexivity|].
      destruct (proj2 (E x') (or_introl eq_refl)) as [->|H']; [reflexivity|].
      elim (str_lt_irrefl x). eapply str_lt_trans; [apply F, H'|apply F', H]. }
    subst x'. f_equal. apply IH; [exact S|exact S'|]. intros y. split; intros H.
    + destruct (proj1 (E y) (or_intror H)) as [<-|H']; [|exact H']. elim (str_lt_irrefl x). apply F, H.
    + destruct (proj2 (E y) (or_intror H)) as [<-|H']; [|exact H']. elim (str_lt_irrefl x). apply F', H.
Qed.

(** sorting pairs by their first component *)
Fixpoint insert_pair (x : pystr * pystr) (l : list (pystr * pystr)) : list (pystr * pystr) :=
  match l with
  | [] => [x]
  | y :: rest => match str_cmp (fst x) (fst y) with Gt => y :: insert_pair x rest | _ => x :: y :: rest end
  end.
Definition sort_pairs l := fold_right insert_pair [] l.
Lemma insert_pair_perm x l : Permutation (insert_pair x l) (x :: l).
Proof.
  induction l as [|y l IH]; [apply Permutation_refl|]. cbn [insert_pair]. destruct (str_cmp _ _); try apply Permutation_refl.
  eapply Permutation_trans; [apply perm_skip, IH|apply perm_swap].
Qed.
Lemma sort_pairs_perm l : Permutation (sort_pairs l) l.
Proof. induction l as [|x l IH]; [apply perm_nil|]. eapply Permutation_trans; [apply insert_pair_perm|apply perm_skip, IH]. Qed.
Lemma insert_pair_fst x l : map fst (insert_pair x l) = insert_str (fst x) (map fst l).
Proof. induction l as [|y l IH]; [reflexivity|]. cbn [insert_pair map insert_str]. destruct (str_cmp _ _); cbn [map]; rewrite ?IH; reflexivity. Qed.
Lemma sort_pairs_fst l : map fst (sort_pairs l) = sort_strs (map fst l).
Proof. induction l as [|x l IH]; [reflexivity|]. cbn [sort_pairs fold_right map sort_strs]. rewrite insert_pair_fst. fold (sort_pairs l). rewrite IH. reflexivity. Qed.

Lemma combine_fst {A B} (a : list A) : forall (b : list B), length a = length b -> map fst (combine a b) = a.
Proof. induction a as [|x a IH]; intros [|y b] L; try discriminate L; [reflexivity|]. cbn [combine map fst]. f_equal. apply IH. injection L. auto. Qed.
Lemma combine_snd {A B} (a : list A) : forall (b : list B), length a = length b -> map snd (combine a b) = b.
Proof. induction a as [|x a IH]; intros [|y b] L; try discriminate L; [reflexivity|]. cbn [combine map snd]. f_equal. apply IH. injection L. auto. Qed.
Lemma combine_split {A B} (l : list (A * B)) : combine (map fst l) (map snd l) = l.
Proof. induction l as [|[x y] l IH]; [reflexivity|]. cbn [map fst snd combine]. rewrite IH. reflexivity. Qed.

Lemma pairs_fst_inj l (a b b' : pystr) : NoDup (map fst l) -> In (a, b) l -> In (a, b') l -> b = b'.
Proof.
  induction l as [|[x y] l IH]; intros N H H'; [destruct H|]. cbn [map fst] in N. apply NoDup_cons_iff in N. destruct N as [N1 N2].
  destruct H as [E|H], H' as [E'|H'].
  - congruence.
  - injection E as -> ->. elim N1. apply (in_map fst) in H'. exact H'.
  - injection E' as -> ->. elim N1. apply (in_map fst) in H. exact H.
  - apply IH; assumption.
Qed.

Lemma monotone_sorted cols refcols : NoDup cols -> NoDup refcols -> length cols = length refcols -> monotone cols refcols ->
  Permutation (pairs (sort_strs cols) (sort_strs refcols)) (pairs cols refcols).
Proof.
  intros N N' L M. unfold pairs in *. set (P := combine cols refcols) in *.
  assert (E1 : map fst (sort_pairs P) = sort_strs cols) by (rewrite sort_pairs_fst; unfold P; rewrite combine_fst by exact L; reflexivity).
  assert (E2 : map snd (sort_pairs P) = sort_strs refcols).
  { apply strict_unique.
    - assert (S : StronglySorted str_lt (map fst (sort_pairs P))) by (rewrite E1; apply sort_strs_strict, N).
      assert (I : forall x, In x (sort_pairs P) -> In x P) by (intros x; apply Permutation_in, sort_pairs_perm).
      clear E1. revert S I. induction (sort_pairs P) as [|[a b] l IH]; intros S I; [constructor|]. cbn [map fst snd] in *.
      apply StronglySorted_inv in S. destruct S as [S F]. constructor; [apply IH; [exact S|intros x Hx; apply I; right; exact Hx]|].
      apply Forall_forall. intros y Hy. apply in_map_iff in Hy. destruct Hy as ([a' b'] & <- & Hy). cbn [snd].
      apply (M a b a' b'); [apply I; left; reflexivity|apply I; right; exact Hy|].
      rewrite Forall_forall in F. apply F, (in_map fst _ _ Hy).
    - apply sort_strs_strict, N'.
    - intros x. assert (X : Permutation (map snd (sort_pairs P)) (sort_strs refcols)).
      { eapply Permutation_trans; [apply Permutation_map, sort_pairs_perm|]. unfold P. rewrite combine_snd by exact L. apply Permutation_sym, sort_strs_perm. }
      split; apply Permutation_in; [exact X|apply Permutation_sym, X]. }
  rewrite <- E1, <- E2, combine_split. apply sort_pairs_perm.
Qed.
Lemma sorted_monotone a : forall b, StronglySorted str_lt a -> StronglySorted str_lt b -> monotone a b.
Proof.
  unfold monotone, pairs. induction a as [|x a IH]; intros [|y b] S S'; intros p q p' q' H H' Lt; try (destruct H; fail).
  apply StronglySorted_inv in S, S'. destruct S as [S F], S' as [S' F']. rewrite Forall_forall in F, F'. cbn [combine] in H, H'.
  destruct H as [E|H], H' as [E'|H'].
  - injection E as -> ->. injection E' as -> ->. elim (str_lt_irrefl _ Lt).
  - injection E as -> ->. apply F'. eapply in_combine_r, H'.
  - injection E' as -> ->. elim (str_lt_irrefl p). eapply str_lt_trans; [exact Lt|]. apply F. eapply in_combine_l, H.
  - eapply IH; eassumption.
Qed.

Theorem same_pairs_iff cols refcols : NoDup cols -> NoDup refcols -> length cols = length refcols ->
  (forall a b, In (a, b) (pairs (sort_strs cols) (sort_strs refcols)) <-> In (a, b) (pairs cols refcols)) <-> monotone cols refcols.
Proof.
  intros N N' L. split.
  - intros H a b a' b' H1 H2. apply H in H1, H2. apply (sorted_monotone (sort_strs cols) (sort_strs refcols)); try assumption; apply sort_strs_strict; assumption.
  - intros M a b. pose proof (monotone_sorted _ _ N N' L M) as P. split; apply Permutation_in; [exact P|apply Permutation_sym, P].
Qed.

Lemma pairs_snd_inj l (a a' b : pystr) : NoDup (map snd l) -> In (a, b) l -> In (a', b) l -> a = a'.
Proof.
  induction l as [|[x y] l IH]; intros N H H'; [destruct H|]. cbn [map snd] in N. apply NoDup_cons_iff in N. destruct N as [N1 N2].
  destruct H as [E|H], H' as [E'|H'].
  - congruence.
  - injection E as -> ->. elim N1. apply (in_map snd) in H'. exact H'.
  - injection E' as -> ->. elim N1. apply (in_map snd) in H. exact H.
  - apply IH; assumption.
Qed.
Lemma same_meaning a b a' b' : NoDup a -> NoDup b -> length a = length b -> NoDup a' -> NoDup b' -> length a' = length b' ->
  (forall x, In x a <-> In x a') ->
  ((forall row target : pystr -> bool, refers_to a b row target <-> refers_to a' b' row target) <->
   (forall x y, In (x, y) (pairs a b) <-> In (x, y) (pairs a' b'))).
Proof.
  intros Na Nb L Na' Nb' L' Same. split.
  - intros H.
    assert (G : forall a b a' b', NoDup a -> NoDup b -> length a = length b -> (forall x, In x a' -> In x a) ->
      (forall row target : pystr -> bool, refers_to a b row target -> refers_to a' b' row target) ->
      forall x y, In (x, y) (pairs a' b') -> In (x, y) (pairs a b)).
    { clear. intros a b a' b' Na Nb L Same H x y Hxy. unfold pairs in *.
      assert (Hx : In x a) by (apply Same; eapply in_combine_l, Hxy).
      assert (Ex : exists z, In (x, z) (combine a b)).
      { rewrite <- (combine_fst a b L) in Hx. apply in_map_iff in Hx. destruct Hx as ([x' z] & <- & Hx). exists z. exact Hx. }
      destruct Ex as (z & Hz). destruct (str_eq_dec y z) as [->|Ne]; [exact Hz|]. exfalso.
      assert (R : refers_to a b (fun p => str_eqb p x) (fun q => str_eqb q z)).
      { intros p q Hpq. unfold pairs in Hpq. destruct (str_eq_dec p x) as [->|Np].
        - assert (q = z) by (eapply pairs_fst_inj; [|exact Hpq|exact Hz]; rewrite combine_fst by exact L; exact Na). subst q. rewrite !str_eqb_refl. reflexivity.
        - destruct (str_eq_dec q z) as [->|Nq].
          + elim Np. eapply pairs_snd_inj; [|exact Hpq|exact Hz]. rewrite combine_snd by exact L. exact Nb.
          + apply str_eqb_neq in Np, Nq. rewrite Np, Nq. reflexivity. }
      apply H in R. specialize (R x y Hxy). cbv beta in R. rewrite str_eqb_refl in R. symmetry in R. apply str_eqb_eq in R. contradiction. }
    intros x y. split.
    + apply (G a' b' a b Na' Nb' L'); [intros z; apply Same|]. intros r t. apply H.
    + apply (G a b a' b' Na Nb L); [intros z; apply Same|]. intros r t. apply H.
  - intros H row target. split; intros R x y Hxy; apply R, H, Hxy.
Qed.

Lemma add_fks_fks drop name pk lv fks : forall acc r, add_fks drop name pk lv acc fks = Ok r ->
  fst r = fst acc ++ flat_map (fun fk => if dk_schema fk then [] else
     if match dk_cols fk with [c] => str_mem c lv | _ => false end then [] else
     if drop && str_eqb (dk_resource fk) name then [] else
     [(sort_strs (dk_cols fk), dk_resource fk, sort_strs (dk_refcols fk))]) fks.
Proof.
  induction fks as [|fk fks IH]; intros acc r H; cbn [add_fks flat_map] in *.
  - injection H as <-. rewrite app_nil_r. reflexivity.
  - destruct (add_fk drop name pk lv acc fk) as [acc'|] eqn:E; [|discriminate H]. cbn [bind] in H. rewrite (IH _ _ H), app_assoc. f_equal.
    unfold add_fk in E. destruct (dk_schema fk); [injection E as <-; rewrite app_nil_r; reflexivity|].
    assert (Pl : (if drop && str_eqb (dk_resource fk) name then Ok acc
      else Ok (fst acc ++ [(sort_strs (dk_cols fk), dk_resource fk, sort_strs (dk_refcols fk))], snd acc)) = Ok acc' ->
      fst acc' = fst acc ++ (if drop && str_eqb (dk_resource fk) name then [] else [(sort_strs (dk_cols fk), dk_resource fk, sort_strs (dk_refcols fk))])).
    { destruct (drop && _); intros X; injection X as <-; [rewrite app_nil_r|]; reflexivity. }
    destruct (dk_cols fk) as [|c [|c2 l]]; [apply Pl, E| |apply Pl, E].
    destruct (str_mem c lv); [|apply Pl, E]. destruct (dk_refcols fk) as [|? [|? ?]]; try discriminate E. destruct pk as [|? [|? ?]]; try discriminate E.
    injection E as <-. rewrite app_nil_r. reflexivity.
Qed.
