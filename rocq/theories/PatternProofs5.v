(** C19: patterns with an exponent. *)
From Verif Require Import PyStr Dec Numeric NumericSpec DecProofs DecProofs2 PatternProofs.
From Coq Require Import ZifyBool ZifyN ZifyNat.

Lemma before_app c a b : ~ In c a -> before c (a ++ c :: b) = a /\ after c (a ++ c :: b) = b.
Proof. apply before_absent. Qed.
Lemma lower_app a b : ascii_lower (a ++ b) = ascii_lower a ++ ascii_lower b. Proof. unfold ascii_lower. apply map_app. Qed.
Lemma count_stop_d s t : ~ In 69 s -> decimal_count (s ++ 69 :: t) = decimal_count s.
Proof.
  induction s as [|c s IH]; intros H; [reflexivity|]. cbn [app decimal_count]. destruct (N.eqb_spec c 69) as [->|]; [exfalso; apply H; left; reflexivity|].
  rewrite IH by (intros K; apply H; right; exact K). reflexivity.
Qed.
Lemma count_stop_s s t : ~ In 69 s -> significant_count (s ++ 69 :: t) = significant_count s.
Proof.
  induction s as [|c s IH]; intros H; [reflexivity|]. cbn [app significant_count]. destruct (N.eqb_spec c 69) as [->|]; [exfalso; apply H; left; reflexivity|].
  rewrite IH by (intros K; apply H; right; exact K). reflexivity.
Qed.
Lemma exponent_count_all i j : exponent_count (repeat 35 i ++ repeat 48 j) = (i + j)%nat.
Proof. induction i as [|i IH]; [induction j as [|j IH]; [reflexivity|]; cbn [repeat app exponent_count] in *; cbn [N.eqb Pos.eqb orb]; rewrite IH; reflexivity|]. cbn [repeat app exponent_count]. cbn [N.eqb Pos.eqb orb]. rewrite IH. reflexivity. Qed.
Lemma lower_repeat x n : is_upper x = false -> ascii_lower (repeat x n) = repeat x n.
Proof. intros H. apply ascii_lower_id. intros c Hc. apply repeat_spec in Hc. subst c. exact H. Qed.
Lemma count_zero c s : ~ In c s -> count_char c s = 0%nat.
Proof.
  intros H. unfold count_char. induction s as [|x s IH]; [reflexivity|]. cbn [filter]. destruct (N.eqb_spec c x) as [<-|]; [exfalso; apply H; left; reflexivity|]. apply IH. intros K. apply H. right; exact K.
Qed.
(** the pattern with an exponent, and the one without it *)
Lemma pattern_exponent ip a b i j : patchars ip ->
  exists P P', number_pattern (ip ++ frac_text (Some (a, b))) = Ok P /\ number_pattern (ip ++ frac_text (Some (a, b)) ++ 69 :: repeat 35 i ++ repeat 48 j) = Ok P' /\
    before 46 (np_positive P') = before 46 (np_positive P) /\ decimal_digits P' = decimal_digits P /\ significant_decimal_digits P' = significant_decimal_digits P /\ exponent_digits P = 0%nat /\ exponent_digits P' = (i + j)%nat.
Proof.
  intros Hip. destruct (pattern_read ip (Some (a, b)) Hip) as (P & E1 & E2 & E3 & E4 & E5). exists P. set (p := ip ++ frac_text (Some (a, b)) ++ 69 :: repeat 35 i ++ repeat 48 j). exists {| np_positive := p |}. split; [exact E1|].
  assert (No : forall c, c <> 35 -> c <> 48 -> c <> 44 -> c <> 46 -> c <> 69 -> ~ In c p).
  { intros c H1 H2 H3 H4 H5 Hin. unfold p in Hin. rewrite !in_app_iff in Hin. cbn [In] in Hin. rewrite in_app_iff in Hin. destruct Hin as [Hin|[Hin|[Hin|[Hin|Hin]]]].
    - revert Hin. apply patchars_absent; assumption.
    - apply frac_In in Hin. destruct Hin as [?|[?|?]]; congruence.
    - congruence.
    - apply repeat_spec in Hin. congruence.
    - apply repeat_spec in Hin. congruence. }
  assert (Np : number_pattern p = Ok {| np_positive := p |}).
  { unfold number_pattern. rewrite count_zero by (apply No; lia). cbn [Nat.leb]. rewrite (proj1 (before_none 59 p ltac:(apply No; lia))). reflexivity. }
  split; [exact Np|]. cbn [np_positive].
  assert (Ba : before 46 p = ip /\ after 46 p = (repeat 48 a ++ repeat 35 b) ++ 69 :: repeat 35 i ++ repeat 48 j).
  { unfold p. cbn [frac_text]. change (lit "." ++ repeat 48 a ++ repeat 35 b) with (46 :: repeat 48 a ++ repeat 35 b). cbn [app]. apply before_app. apply patchars_absent; auto; lia. }
  destruct Ba as [Hb Ha]. split; [rewrite Hb, E2; reflexivity|]. unfold decimal_digits, significant_decimal_digits, exponent_digits. cbn [np_positive]. rewrite Ha.
  assert (N69 : ~ In 69 (repeat 48 a ++ repeat 35 b)) by (rewrite in_app_iff; intros [H|H]; apply repeat_spec in H; discriminate H).
  rewrite count_stop_d, count_stop_s by exact N69. unfold decimal_digits, significant_decimal_digits in E3, E4. rewrite decimal_count_zeros, decimal_count_hashes, significant_count_zeros. split; [symmetry; exact E3|]. split; [symmetry; exact E4|]. split; [exact E5|].
  assert (L : ascii_lower p = (ip ++ frac_text (Some (a, b))) ++ 101 :: repeat 35 i ++ repeat 48 j).
  { unfold p. rewrite app_assoc, lower_app. f_equal.
    - apply ascii_lower_id. intros c Hc. destruct (is_upper c) eqn:E; [|reflexivity]. exfalso. apply in_app_or in Hc. destruct Hc as [Hc|Hc]; [revert Hc; apply patchars_absent; auto; unfold is_upper in E; lia|]. apply frac_In in Hc. unfold is_upper in E. lia.
    - change (69 :: repeat 35 i ++ repeat 48 j) with ([69] ++ repeat 35 i ++ repeat 48 j). rewrite !lower_app. rewrite !lower_repeat by reflexivity. reflexivity. }
  assert (N101 : ~ In 101 (ip ++ frac_text (Some (a, b)))).
  { rewrite in_app_iff. intros [H|H]; [revert H; apply patchars_absent; auto; lia|]. apply frac_In in H. destruct H as [H|[H|H]]; discriminate H. }
  rewrite L. rewrite (proj2 (before_app 101 _ _ N101)). apply exponent_count_all.
Qed.
Definition signs (s : pystr) : Prop := s = [] \/ s = lit "+" \/ s = lit "-".
Lemma numeral_exponent P P' neg plus gs fp (e : N) sg ep :
  before 46 (np_positive P') = before 46 (np_positive P) -> decimal_digits P' = decimal_digits P -> significant_decimal_digits P' = significant_decimal_digits P -> exponent_digits P = 0%nat ->
  Forall (fun g => digs g) gs -> digs fp -> digs ep -> e = 69 \/ e = 101 -> signs sg ->
  is_valid P' (grouped_numeral neg plus gs true fp ++ e :: sg ++ ep) = is_valid P (grouped_numeral neg plus gs true fp) && ((exponent_digits P' =? 0)%nat || (length ep <=? exponent_digits P')%nat).
Proof.
  intros B D Sg E0 Hgs Hfp Hep He Hsg. set (h := sgn neg plus ++ join (lit ",") gs).
  assert (Ng : grouped_numeral neg plus gs true fp = h ++ 46 :: fp) by (unfold grouped_numeral, h; rewrite <- app_assoc; reflexivity).
  assert (Hh : forall c, In c h -> 48 <= c <= 57 \/ c = 44 \/ c = 43 \/ c = 45).
  { unfold h. intros c Hc. apply in_app_or in Hc. destruct Hc as [Hc|Hc]; [destruct neg, plus; cbn in Hc; intuition lia|]. clear - Hgs Hc. revert Hc. induction Hgs as [|g gs Hg Hgs IH]; [contradiction|]. intros Hc.
    destruct gs as [|g2 gs]; [left; eapply Forall_forall in Hg; [|exact Hc]; exact Hg|]. cbn [join] in Hc. rewrite !in_app_iff in Hc. destruct Hc as [Hc|[[<-|[]]|Hc]]; [left; eapply Forall_forall in Hg; [|exact Hc]; exact Hg|auto|apply IH, Hc]. }
  assert (Lo : forall t, (forall c, In c t -> is_upper c = false) -> ascii_lower t = t) by (intros t Ht; apply ascii_lower_id; exact Ht).
  assert (Lf : ascii_lower fp = fp) by (apply Lo; intros c Hc; eapply Forall_forall in Hfp; [|exact Hc]; unfold is_upper; cbn in Hfp; lia).
  assert (Lep : ascii_lower ep = ep) by (apply Lo; intros c Hc; eapply Forall_forall in Hep; [|exact Hc]; unfold is_upper; cbn in Hep; lia).
  assert (Lh : ascii_lower h = h) by (apply Lo; intros c Hc; apply Hh in Hc; unfold is_upper; lia).
  assert (Ls : ascii_lower sg = sg) by (destruct Hsg as [->|[->| ->]]; reflexivity).
  assert (Nf : ~ In 101 fp) by (intros Hin; eapply Forall_forall in Hfp; [|exact Hin]; cbn in Hfp; lia).
  assert (Nh : ~ In 46 h) by (intros Hin; apply Hh in Hin; lia).
  rewrite Ng. unfold is_valid. cbv zeta. rewrite <- app_assoc. cbn [app].
  destruct (before_app 46 h (fp ++ e :: sg ++ ep) Nh) as [E1 E2]. destruct (before_app 46 h fp Nh) as [E3 E4]. rewrite E1, E2, E3, E4.
  assert (Le : ascii_lower (e :: sg ++ ep) = 101 :: sg ++ ep).
  { change (e :: sg ++ ep) with ([e] ++ sg ++ ep). rewrite !lower_app, Ls, Lep. destruct He as [-> | ->]; reflexivity. }
  assert (E5 : before 101 (ascii_lower (fp ++ e :: sg ++ ep)) = fp) by (rewrite lower_app, Lf, Le; apply before_app, Nf).
  rewrite E5, Lf. rewrite (proj1 (before_none 101 fp Nf)).
  assert (X1 : min_digits_before P' = min_digits_before P) by (unfold min_digits_before; rewrite B; reflexivity).
  assert (X2 : primary_grouping_size P' = primary_grouping_size P) by (unfold primary_grouping_size; rewrite B; reflexivity).
  assert (X3 : secondary_grouping_size P' = secondary_grouping_size P) by (unfold secondary_grouping_size; rewrite B, X2; reflexivity).
  rewrite X1, X2, X3, D, Sg, E0. change (Nat.ltb 0 0) with false. cbn [andb negb]. rewrite andb_true_r.
  match goal with |- ?a && ?b = ?a && ?c => replace b with c; [reflexivity|] end.
  assert (Lall : ascii_lower (h ++ 46 :: fp ++ e :: sg ++ ep) = (h ++ 46 :: fp) ++ 101 :: (sg ++ ep)).
  { rewrite lower_app, Lh, <- app_assoc. change (46 :: fp ++ e :: sg ++ ep) with ([46] ++ fp ++ (e :: sg ++ ep)). rewrite !lower_app, Lf, Le. reflexivity. }
  rewrite Lall.
  assert (Ne : ~ In 101 (h ++ 46 :: fp)) by (rewrite in_app_iff; intros [H|[H|H]]; [apply Hh in H; lia|discriminate H|exact (Nf H)]).
  assert (Nse : ~ In 101 (sg ++ ep)) by (rewrite in_app_iff; intros [H|H]; [destruct Hsg as [->|[->| ->]]; cbn in H; intuition discriminate|eapply Forall_forall in Hep; [|exact H]; cbn in Hep; lia]).
  assert (Sp : split (lit "e") ((h ++ 46 :: fp) ++ 101 :: sg ++ ep) = [h ++ 46 :: fp; sg ++ ep]).
  { change ((h ++ 46 :: fp) ++ 101 :: sg ++ ep) with (join [101] [h ++ 46 :: fp; sg ++ ep]). apply split_join; [discriminate|]. constructor; [exact Ne|]. constructor; [exact Nse|constructor]. }
  rewrite Sp. unfold last_or. cbn [last]. assert (Pd : pat_digits (sg ++ ep) = ep) by (destruct Hsg as [->|[->| ->]]; [apply pat_digits_digs, Hep|exact (pat_digits_sgn false true ep Hep)|exact (pat_digits_sgn true false ep Hep)]). rewrite Pd.
  assert (C : char_mem 101 ((h ++ 46 :: fp) ++ 101 :: sg ++ ep) = true) by (apply char_mem_In; apply in_or_app; right; left; reflexivity). rewrite C. lia.
Qed.
(** without an exponent in the numeral *)
Lemma numeral_no_exponent P P' neg plus gs (point : bool) fp :
  before 46 (np_positive P') = before 46 (np_positive P) -> decimal_digits P' = decimal_digits P -> significant_decimal_digits P' = significant_decimal_digits P -> exponent_digits P = 0%nat ->
  Forall (fun g => digs g) gs -> digs fp ->
  is_valid P' (grouped_numeral neg plus gs point fp) = is_valid P (grouped_numeral neg plus gs point fp).
Proof.
  intros B D Sg E0 Hgs Hfp. set (s := grouped_numeral neg plus gs point fp).
  assert (Hs : forall c, In c s -> 48 <= c <= 57 \/ c = 44 \/ c = 43 \/ c = 45 \/ c = 46).
  { unfold s, grouped_numeral. intros c Hc. rewrite !in_app_iff in Hc. destruct Hc as [Hc|[Hc|Hc]]; [destruct neg, plus; cbn in Hc; intuition lia| |].
    - clear - Hgs Hc. revert Hc. induction Hgs as [|g gs Hg Hgs IH]; [contradiction|]. intros Hc.
      destruct gs as [|g2 gs]; [left; eapply Forall_forall in Hg; [|exact Hc]; exact Hg|]. cbn [join] in Hc. rewrite !in_app_iff in Hc. destruct Hc as [Hc|[[<-|[]]|Hc]]; [left; eapply Forall_forall in Hg; [|exact Hc]; exact Hg|auto|apply IH, Hc].
    - destruct point; [|contradiction]. destruct Hc as [<-|Hc]; [auto|]. left. eapply Forall_forall in Hfp; [|exact Hc]. exact Hfp. }
  assert (Ls : ascii_lower s = s) by (apply ascii_lower_id; intros c Hc; apply Hs in Hc; unfold is_upper; lia).
  unfold is_valid. cbv zeta. rewrite Ls.
  assert (X1 : min_digits_before P' = min_digits_before P) by (unfold min_digits_before; rewrite B; reflexivity).
  assert (X2 : primary_grouping_size P' = primary_grouping_size P) by (unfold primary_grouping_size; rewrite B; reflexivity).
  assert (X3 : secondary_grouping_size P' = secondary_grouping_size P) by (unfold secondary_grouping_size; rewrite B, X2; reflexivity).
  rewrite X1, X2, X3, D, Sg. assert (C : char_mem 101 s = false) by (apply char_mem_false; intros Hc; apply Hs in Hc; lia). rewrite C. rewrite !andb_false_r. reflexivity.
Qed.
(** the two shapes of patterns of NumericSpec.v: an integer part of # , 0 and a fraction *)
Lemma plain_shape h z a b : exists ip, patchars ip /\ plain_pattern h z (Some (a, b)) = ip ++ frac_text (Some (a, b)).
Proof. exists (repeat 35 h ++ repeat 48 z). split; [apply Forall_app; split; apply patchars_repeat; auto|]. unfold plain_pattern. rewrite app_assoc. reflexivity. Qed.
Lemma grouped_shape h q p k a b : exists ip, patchars ip /\ grouped_pattern h q p k (Some (a, b)) = ip ++ frac_text (Some (a, b)).
Proof.
  exists (repeat 35 h ++ lit "," ++ (match q with Some n => repeat 35 n ++ lit "," | None => [] end) ++ repeat 35 (p - k) ++ repeat 48 k). split.
  - apply Forall_app; split; [apply patchars_repeat; auto|]. apply Forall_app; split; [constructor; [auto|constructor]|]. apply Forall_app; split.
    + destruct q; [|constructor]. apply Forall_app; split; [apply patchars_repeat; auto|constructor; [auto|constructor]].
    + apply Forall_app; split; apply patchars_repeat; auto.
  - unfold grouped_pattern. rewrite <- !app_assoc. reflexivity.
Qed.
Lemma grouped_one neg plus ip point fp : grouped_numeral neg plus [ip] point fp = numeral neg plus ip point fp.
Proof. reflexivity. Qed.
Theorem exponent_valid pat i j : (exists ip a b, patchars ip /\ pat = ip ++ frac_text (Some (a, b))) ->
  exists P P', number_pattern pat = Ok P /\ number_pattern (pat ++ 69 :: repeat 35 i ++ repeat 48 j) = Ok P' /\
  forall neg plus gs fp, Forall (fun g => digs g) gs -> digs fp ->
    (forall point, is_valid P' (grouped_numeral neg plus gs point fp) = is_valid P (grouped_numeral neg plus gs point fp)) /\
    (forall e sg ep, digs ep -> e = 69 \/ e = 101 -> signs sg ->
       is_valid P' (grouped_numeral neg plus gs true fp ++ e :: sg ++ ep) = true <-> is_valid P (grouped_numeral neg plus gs true fp) = true /\ (i + j = 0 \/ length ep <= i + j)%nat).
Proof.
  intros (ip & a & b & Hip & ->). destruct (pattern_exponent ip a b i j Hip) as (P & P' & E1 & E2 & B & D & Sg & Z0 & X). exists P, P'. split; [exact E1|]. split; [rewrite <- app_assoc; exact E2|].
  intros neg plus gs fp Hgs Hfp. split; [intros point; apply numeral_no_exponent; assumption|]. intros e sg ep Hep He Hsg.
  rewrite (numeral_exponent P P') by assumption. rewrite X, andb_true_iff, orb_true_iff, Nat.eqb_eq, Nat.leb_le. reflexivity.
Qed.
