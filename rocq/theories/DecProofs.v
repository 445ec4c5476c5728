(** Digit strings and Decimal parsing/printing. *)
From Verif Require Import PyStr Dec.
From Coq Require Import ZifyBool ZifyN ZifyNat.

Lemma val_digits_app a b : val_digits (a ++ b) = val_digits a * 10 ^ N.of_nat (length b) + val_digits b.
Proof.
  unfold val_digits. rewrite fold_left_app. generalize (fold_left (fun a c => a * 10 + (c - 48)) a 0) as x.
  induction b as [|c b IH] using rev_ind; intros x; cbn [fold_left length].
  - rewrite N.pow_0_r. lia.
  - rewrite !fold_left_app. cbn [fold_left]. rewrite IH.
    rewrite app_length. cbn [length]. replace (N.of_nat (length b + 1)) with (N.succ (N.of_nat (length b))) by lia.
    rewrite N.pow_succ_r'. lia.
Qed.
Lemma val_digits_one c : val_digits [c] = c - 48.
Proof. reflexivity. Qed.
Lemma val_digits_nil : val_digits [] = 0.
Proof. reflexivity. Qed.
Lemma val_digits_cons c s : val_digits (c :: s) = (c - 48) * 10 ^ N.of_nat (length s) + val_digits s.
Proof. change (c :: s) with ([c] ++ s). rewrite val_digits_app, val_digits_one. reflexivity. Qed.
Lemma val_digits_zeros n s : val_digits (repeat 48 n ++ s) = val_digits s.
Proof.
  induction n as [|n IH]; [reflexivity|]. cbn [repeat app]. rewrite val_digits_cons, IH. lia.
Qed.
Lemma val_digits_bound s : all_digits s = true -> val_digits s < 10 ^ N.of_nat (length s).
Proof.
  induction s as [|c s IH] using rev_ind; [intros _; cbn; lia|].
  unfold all_digits. rewrite forallb_app. cbn [forallb]. intros H.
  apply andb_true_iff in H. destruct H as [H1 H2]. specialize (IH H1).
  rewrite val_digits_app, val_digits_one, app_length. cbn [length].
  replace (N.of_nat (length s + 1)) with (N.succ (N.of_nat (length s))) by lia.
  rewrite N.pow_succ_r'. change (10 ^ N.of_nat 1) with 10. unfold is_digit in H2. lia.
Qed.

Lemma digits_fuel_spec fuel : forall n, (N.size_nat n < fuel)%nat ->
  val_digits (digits_fuel fuel n) = n /\ all_digits (digits_fuel fuel n) = true
  /\ digits_fuel fuel n <> []
  /\ (n <> 0 -> forall c s, digits_fuel fuel n = c :: s -> c <> 48).
Proof.
  induction fuel as [|fuel IH]; intros n Hf; [lia|]. cbn [digits_fuel].
  destruct (N.ltb_spec n 10) as [Hn|Hn].
  - rewrite val_digits_one. repeat split; try discriminate; try lia.
    + unfold all_digits, is_digit; cbn [forallb]. lia.
    + intros Hz c s E. assert (c = 48 + n) by congruence. lia.
  - assert (Hs : (N.size_nat (n / 10) < fuel)%nat).
    { assert (Hd : n / 10 <= N.div2 n).
      { rewrite N.div2_div. pose proof (N.div_mod n 10 ltac:(lia)). pose proof (N.div_mod n 2 ltac:(lia)).
        pose proof (N.mod_lt n 10 ltac:(lia)). pose proof (N.mod_lt n 2 ltac:(lia)). lia. }
      assert (Hm : forall a b, a <= b -> (N.size_nat a <= N.size_nat b)%nat).
      { intros a b Hab. destruct a as [|a]; [cbn; lia|]. destruct b as [|b]; [lia|].
        assert (E : forall p, N.size_nat (Npos p) = N.to_nat (N.size (Npos p))).
        { intros p. cbn. clear. induction p as [p IHp|p IHp|]; cbn in *; rewrite ?IHp, ?Pos2Nat.inj_succ; reflexivity. }
        rewrite !E, !N.size_log2 by discriminate.
        assert (N.log2 (Npos a) <= N.log2 (Npos b)) by (apply N.log2_le_mono; exact Hab). lia. }
      specialize (Hm _ _ Hd).
      assert (N.size_nat (N.div2 n) < N.size_nat n)%nat.
      { destruct n as [|[p|p|]]; cbn in *; lia. }
      lia. }
    specialize (IH (n / 10) Hs). destruct IH as (V & A & Ne & L).
    assert (Hq : n / 10 <> 0).
    { intros E. apply N.div_small_iff in E; lia. }
    repeat split.
    + rewrite val_digits_app, V, val_digits_one. cbn [length]. change (10 ^ N.of_nat 1) with 10.
      pose proof (N.div_mod n 10 ltac:(lia)). lia.
    + unfold all_digits in *. rewrite forallb_app, A. cbn [forallb].
      pose proof (N.mod_lt n 10 ltac:(lia)). unfold is_digit. lia.
    + destruct (digits_fuel fuel (n / 10)); discriminate.
    + intros _ c s E. destruct (digits_fuel fuel (n / 10)) as [|c' s'] eqn:Ed; [congruence|].
      injection E as <- _. exact (L Hq c' s' eq_refl).
Qed.
Lemma digits_of_spec n :
  val_digits (digits_of n) = n /\ all_digits (digits_of n) = true /\ digits_of n <> []
  /\ (n <> 0 -> forall c s, digits_of n = c :: s -> c <> 48).
Proof. apply digits_fuel_spec. lia. Qed.
Lemma val_digits_of n : val_digits (digits_of n) = n.
Proof. apply digits_of_spec. Qed.
Lemma digits_of_all n : all_digits (digits_of n) = true.
Proof. apply digits_of_spec. Qed.
Lemma digits_of_nonempty n : digits_of n <> [].
Proof. apply digits_of_spec. Qed.
Lemma ndigits_pos n : (1 <= ndigits n)%nat.
Proof. unfold ndigits. pose proof (digits_of_nonempty n). destruct (digits_of n); [congruence|cbn; lia]. Qed.
Lemma ndigits_bound n : n < 10 ^ N.of_nat (ndigits n).
Proof. rewrite <- (val_digits_of n) at 1. apply val_digits_bound, digits_of_all. Qed.
Lemma ndigits_lower n : n <> 0 -> 10 ^ N.of_nat (ndigits n - 1) <= n.
Proof.
  intros Hn. destruct (digits_of_spec n) as (V & A & Ne & L). unfold ndigits.
  destruct (digits_of n) as [|c s] eqn:E; [congruence|]. cbn [length]. rewrite Nat.sub_succ, Nat.sub_0_r.
  rewrite <- V, val_digits_cons. specialize (L Hn c s eq_refl).
  unfold all_digits in A. cbn [forallb] in A. apply andb_true_iff in A. destruct A as [Hc _]. unfold is_digit in Hc.
  assert (H1 : 1 <= c - 48) by lia. nia.
Qed.
(** strings of digits without leading zero are canonical *)
Lemma pow10_inj_le a b : 10 ^ a <= 10 ^ b -> a <= b.
Proof. intros H. apply N.pow_le_mono_r_iff in H; lia. Qed.
Lemma ndigits_unique n k : (1 <= k)%nat -> 10 ^ N.of_nat (k - 1) <= n -> n < 10 ^ N.of_nat k -> ndigits n = k.
Proof.
  intros Hk H1 H2. pose proof (ndigits_bound n) as B. 
  assert (Hn : n <> 0) by (intros ->; assert (0 < 10 ^ N.of_nat (k - 1)) by (apply N.neq_0_lt_0, N.pow_nonzero; lia); lia).
  pose proof (ndigits_lower n Hn) as L. pose proof (ndigits_pos n) as P.
  assert (N.of_nat (k - 1) < N.of_nat (ndigits n)) by (apply (N.pow_lt_mono_r_iff 10); lia).
  assert (N.of_nat (ndigits n - 1) < N.of_nat k) by (apply (N.pow_lt_mono_r_iff 10); lia).
  lia.
Qed.
Lemma all_digits_inj s t : all_digits s = true -> all_digits t = true -> length s = length t ->
  val_digits s = val_digits t -> s = t.
Proof.
  revert t; induction s as [|c s IH]; intros [|d t] Hs Ht Hl Hv; cbn in Hl; try discriminate; [reflexivity|].
  unfold all_digits in *. cbn [forallb] in Hs, Ht. apply andb_true_iff in Hs, Ht.
  destruct Hs as [Hc Hs], Ht as [Hd Ht]. rewrite !val_digits_cons in Hv. 
  pose proof (val_digits_bound s Hs). pose proof (val_digits_bound t Ht).
  injection Hl as Hl. rewrite Hl in *. set (P := 10 ^ N.of_nat (length t)) in *.
  unfold is_digit in Hc, Hd.
  assert (E : c - 48 = d - 48) by nia. assert (c = d) by lia. subst d.
  f_equal. apply IH; auto. nia.
Qed.
Lemma digits_of_canonical s : all_digits s = true -> s <> [] -> (forall c r, s = c :: r -> r <> [] -> c <> 48) ->
  digits_of (val_digits s) = s.
Proof.
  intros A Ne L. destruct s as [|c s]; [congruence|]. destruct s as [|d s].
  - unfold all_digits in A. cbn [forallb] in A. unfold is_digit in A.
    rewrite val_digits_one. unfold digits_of. cbn [digits_fuel]. destruct (N.ltb_spec (c - 48) 10); [|lia].
    f_equal. lia.
  - symmetry. apply all_digits_inj; [exact A|apply digits_of_all| |symmetry; apply val_digits_of].
    symmetry. apply ndigits_unique; [cbn [length]; lia| |apply val_digits_bound, A].
    rewrite val_digits_cons. specialize (L c (d :: s) eq_refl ltac:(discriminate)).
    unfold all_digits in A. cbn [forallb] in A. apply andb_true_iff in A. destruct A as [Hc _]. unfold is_digit in Hc.
    replace (length (c :: d :: s) - 1)%nat with (length (d :: s)) by (cbn [length]; lia).
    assert (H1 : 1 <= c - 48) by lia. nia.
Qed.
