(** Facts about texts, permutations and dictionaries used for reading lists of keys (C40). *)
From Coq Require Import Permutation.
From Verif Require Import PyStr Dsv DsvProofs4.

(** *** split() after ' '.join() *)
Lemma split_ws_run w : forall cur rest, (forall c, In c w -> is_space c = false) -> split_ws_aux cur (w ++ rest) = split_ws_aux (cur ++ w) rest.
Proof.
  induction w as [|c w IH]; intros cur rest H; [rewrite app_nil_r; reflexivity|]. cbn [app split_ws_aux]. rewrite (H c (or_introl eq_refl)).
  rewrite IH by (intros d Hd; apply H; right; exact Hd). rewrite <- app_assoc. reflexivity.
Qed.
Definition word (t : pystr) : Prop := t <> [] /\ forall c, In c t -> is_space c = false.
Lemma split_ws_join l : Forall word l -> split_ws (join (lit " ") l) = l.
Proof.
  unfold split_ws. intros H. induction H as [|t l [T1 T2] H IH]; [reflexivity|]. destruct l as [|t2 l].
  - cbn [join]. rewrite <- (app_nil_r t) at 1. rewrite split_ws_run by exact T2. destruct t; [contradiction|reflexivity].
  - change (join (lit " ") (t :: t2 :: l)) with (t ++ [32%N] ++ join (lit " ") (t2 :: l)). rewrite split_ws_run by exact T2.
    cbn [app split_ws_aux]. change (is_space 32) with true. cbv iota. destruct t; [contradiction|]. f_equal. exact IH.
Qed.

(** *** the number of parts that '||'.join() and split('||') give *)
Definition bars : pystr := lit "||".
Lemma split_aux_len sep s : forall cur cur' k, length (split_aux sep cur s k) = length (split_aux sep cur' s k).
Proof.
  induction s as [|c s IH]; intros cur cur' k; [reflexivity|]. cbn [split_aux]. destruct k as [|k]; [|apply IH].
  destruct (startswith sep (c :: s)); [|apply IH]. cbn [length]. f_equal.
Qed.
Definition parts (s : pystr) : nat := length (split bars s).
Lemma parts_bars s : parts (124 :: 124 :: s) = S (parts s).
Proof. unfold parts, split. cbn [split_aux startswith bars lit]. reflexivity. Qed.
Lemma parts_other c s : startswith bars (c :: s) = false -> parts (c :: s) = parts s.
Proof. intros H. unfold parts, split. cbn [split_aux]. rewrite H. apply split_aux_len. Qed.
Lemma bars_start s : startswith bars s = true -> exists r, s = 124 :: 124 :: r.
Proof. intros H. apply startswith_spec in H. destruct H as [r ->]. exists r. reflexivity. Qed.
Lemma parts_tail n : forall c s, (length s <= n)%nat -> (parts s <= parts (c :: s))%nat.
Proof.
  induction n as [|n IH]; intros c s L.
  - destruct s; [|cbn in L; lia]. rewrite parts_other; [lia|]. unfold bars. cbn. apply andb_false_r.
  - destruct (startswith bars (c :: s)) eqn:E; [|rewrite (parts_other c s E); lia].
    apply bars_start in E. destruct E as [r E]. injection E as -> ->. rewrite parts_bars.
    destruct (startswith bars (124 :: r)) eqn:E2; [|rewrite (parts_other 124 r E2); lia].
    apply bars_start in E2. destruct E2 as [q E2]. injection E2 as ->. rewrite parts_bars. cbn in L.
    assert (parts q <= parts (124%N :: q))%nat by (apply IH; lia). lia.
Qed.
Lemma parts_app n : forall x y, (length x <= n)%nat -> (S (parts y) <= parts (x ++ bars ++ y))%nat.
Proof.
  induction n as [|n IH]; intros x y L.
  - destruct x; [|cbn in L; lia]. change (parts ([] ++ bars ++ y)) with (parts (124 :: 124 :: y)). rewrite parts_bars. lia.
  - destruct x as [|c x]; [change (parts ([] ++ bars ++ y)) with (parts (124 :: 124 :: y)); rewrite parts_bars; lia|]. cbn in L.
    destruct (startswith bars ((c :: x) ++ bars ++ y)) eqn:E.
    + apply bars_start in E. destruct E as [r E]. rewrite E, parts_bars. cbn [app] in E. injection E as -> E.
      destruct x as [|d x].
      * cbn in E. injection E as <-. apply le_n_S. apply (parts_tail (length y) 124 y (Nat.le_refl _)).
      * cbn [app] in E. injection E as -> <-. assert (S (parts y) <= parts (x ++ bars ++ y))%nat by (apply IH; cbn in L; lia). apply Nat.le_trans with (1 := H). apply Nat.le_succ_diag_r.
    + change ((c :: x) ++ bars ++ y) with (c :: (x ++ bars ++ y)) in *. rewrite parts_other by exact E. apply IH. lia.
Qed.
Lemma parts_join l : (length l <= parts (join bars l))%nat.
Proof.
  induction l as [|x l IH]; [cbn; lia|]. destruct l as [|y l]; [cbn [join length]; unfold parts, split; destruct x; cbn; try lia|].
  - match goal with |- context [if ?b then _ else _] => destruct b end; cbn; [lia|]. rewrite (split_aux_len _ _ _ [] 0).
    pose proof (split_aux_len bars x [] [] 0). assert (1 <= length (split_aux bars [] x 0))%nat; [|unfold bars in *; cbn in *; lia].
    destruct x; [cbn; lia|]. clear. assert (X : forall s k cur, (1 <= length (split_aux bars cur s k))%nat); [|apply X].
    induction s as [|c s IH]; intros k cur; [cbn; lia|]. cbn [split_aux]. destruct k; [|apply IH]. destruct (startswith bars (c :: s)); [cbn; lia|apply IH].
  - change (join bars (x :: y :: l)) with (x ++ bars ++ join bars (y :: l)). pose proof (parts_app (length x) x (join bars (y :: l)) (Nat.le_refl _)).
    cbn [length] in *. lia.
Qed.
Lemma combine_take {A B} (a : list A) (b : list B) : (length a <= length b)%nat -> map fst (combine a b) = a.
Proof. revert b. induction a as [|x a IH]; intros b H; [reflexivity|]. destruct b; [cbn in H; lia|]. cbn [combine map fst]. f_equal. apply IH. cbn in H. lia. Qed.

(** *** permutations *)
Lemma Perm_Forall2 {A B} (R : A -> B -> Prop) l m m' : Forall2 R l m -> Permutation m m' -> exists l', Permutation l l' /\ Forall2 R l' m'.
Proof.
  intros F H. revert l F. induction H as [|x m m' H IH|x y m|m m1 m' H1 IH1 H2 IH2]; intros l F.
  - inversion F. exists []. split; constructor.
  - inversion F as [|a b l0 m0 Ha Hl]; subst. destruct (IH l0 Hl) as (l' & Hp & Hf). exists (a :: l'). split; constructor; assumption.
  - inversion F as [|a b l0 m0 Ha Hl]; subst. inversion Hl as [|a2 b2 l1 m1 Ha2 Hl1]; subst. exists (a2 :: a :: l1). split; [constructor|]. repeat constructor; assumption.
  - destruct (IH1 l F) as (l1 & P1 & F1). destruct (IH2 l1 F1) as (l2 & P2 & F2). exists l2. split; [eapply Permutation_trans; eassumption|exact F2].
Qed.

(** *** dictionaries whose keys are images of strings *)
Section Keys.
Context {K V : Type} (eqb : K -> K -> bool) (inj : pystr -> K).
Hypothesis ok : forall a b, eqb (inj a) (inj b) = str_eqb a b.
Definition keyed (d : list (pystr * V)) : list (K * V) := map (fun kv => (inj (fst kv), snd kv)) d.
Lemma dget_keyed d k : dget eqb (keyed d) (inj k) = dget str_eqb d k.
Proof. induction d as [|[k' v] d IH]; [reflexivity|]. cbn [keyed map dget fst snd]. rewrite ok. destruct (str_eqb k k'); [reflexivity|exact IH]. Qed.
Lemma dset_keyed d k v : dset eqb (keyed d) (inj k) v = keyed (dset str_eqb d k v).
Proof. induction d as [|[k' v'] d IH]; [reflexivity|]. cbn [keyed map dset fst snd]. rewrite ok. destruct (str_eqb k k'); [reflexivity|]. cbn [map fst snd]. f_equal. exact IH. Qed.
Lemma dset_all_keyed l : forall d, dset_all eqb (keyed d) (keyed l) = keyed (dset_all str_eqb d l).
Proof. induction l as [|[k v] l IH]; intros d; [reflexivity|]. unfold dset_all in *. cbn [keyed map fold_left fst snd]. rewrite dset_keyed. apply IH. Qed.
End Keys.
(** updating keys that are there *)
Lemma dset_there {V} (d : list (pystr * V)) k v : NoDup (map fst d) -> In k (map fst d) ->
  dset str_eqb d k v = map (fun kv => (fst kv, if str_eqb (fst kv) k then v else snd kv)) d.
Proof.
  induction d as [|[k' v'] d IH]; intros N I; [destruct I|]. cbn [map fst] in N. apply NoDup_cons_iff in N. destruct N as [N1 N2]. cbn [dset map fst snd].
  destruct (str_eqb k k') eqn:E.
  - apply str_eqb_eq in E. subst k'. rewrite str_eqb_refl. f_equal. rewrite <- (map_id d) at 1. apply map_ext_in. intros [k2 v2] H. cbn [fst snd].
    destruct (str_eqb k2 k) eqn:E2; [|reflexivity]. apply str_eqb_eq in E2. subst k2. exfalso. apply N1. apply (in_map fst) in H. exact H.
  - assert (X : str_eqb k' k = false) by (apply str_eqb_neq; intros X; apply str_eqb_neq in E; congruence). rewrite X. f_equal. apply IH; [exact N2|].
    destruct I as [I|I]; [exfalso; cbn in I; subst; rewrite str_eqb_refl in E; discriminate|exact I].
Qed.
Lemma dset_all_there {V} (l : list (pystr * V)) : forall d, NoDup (map fst d) -> NoDup (map fst l) -> (forall k, In k (map fst l) -> In k (map fst d)) ->
  dset_all str_eqb d l = map (fun kv => (fst kv, match dget str_eqb l (fst kv) with Some v => v | None => snd kv end)) d.
Proof.
  induction l as [|[k v] l IH]; intros d N Nl I.
  - cbn. rewrite <- (map_id d) at 1. apply map_ext. intros []. reflexivity.
  - unfold dset_all in *. cbn [fold_left fst snd]. cbn [map fst] in Nl, I. apply NoDup_cons_iff in Nl. destruct Nl as [Nl1 Nl2].
    rewrite dset_there by (try exact N; apply I; left; reflexivity).
    rewrite IH; [|rewrite map_map; exact N|exact Nl2|intros x Hx; rewrite map_map; apply I; right; exact Hx].
    rewrite map_map. apply map_ext. intros [k2 v2]. cbn [fst snd dget]. f_equal. destruct (str_eqb k2 k) eqn:E.
    + apply str_eqb_eq in E. subst k2. destruct (dget str_eqb l k) as [w|] eqn:F; [|reflexivity]. exfalso. apply Nl1.
      clear -F. induction l as [|[a b] l IH]; [discriminate F|]. cbn in *. destruct (str_eqb k a) eqn:E; [apply str_eqb_eq in E; auto|right; apply IH, F].
    + reflexivity.
Qed.
