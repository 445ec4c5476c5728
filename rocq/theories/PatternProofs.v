(** C19: number patterns. *)
From Verif Require Import PyStr Dec Numeric NumericSpec DecProofs DecProofs2.
From Coq Require Import ZifyBool ZifyN ZifyNat.

Notation digs s := (Forall (fun c => 48 <= c <= 57) s).

Lemma before_none c s : ~ In c s -> before c s = s /\ after c s = [].
Proof.
  unfold before, after. induction s as [|x s IH]; cbn [partition1]; intros H; [split; reflexivity|].
  destruct (N.eqb_spec x c) as [->|]; [exfalso; apply H; left; reflexivity|].
  cbn [fst snd]. destruct IH as [I1 I2]; [intros Hin; apply H; right; exact Hin|]. rewrite I1, I2. split; reflexivity.
Qed.
Lemma split_join c gs : gs <> [] -> Forall (fun g => ~ In c g) gs -> split [c] (join [c] gs) = gs.
Proof.
  intros Hne H. unfold split.
  assert (Hcur : forall g cur rest, ~ In c g -> split_aux [c] cur (g ++ rest) 0 = split_aux [c] (cur ++ g) rest 0).
  { induction g as [|x g IH]; intros cur rest Hg; cbn [app]; [rewrite app_nil_r; reflexivity|].
    cbn [split_aux startswith]. destruct (N.eqb_spec c x) as [->|]; [exfalso; apply Hg; left; reflexivity|].
    cbn [andb]. rewrite IH by (intros Hin; apply Hg; right; exact Hin). rewrite <- app_assoc. reflexivity. }
  induction H as [|g gs Hg Hgs IH]; [congruence|].
  destruct gs as [|h gs].
  - cbn [join]. rewrite <- (app_nil_r g) at 1. rewrite Hcur by exact Hg. reflexivity.
  - change (join [c] (g :: h :: gs)) with (g ++ c :: join [c] (h :: gs)). rewrite Hcur by exact Hg.
    cbn [split_aux startswith]. rewrite N.eqb_refl. cbn [andb length Nat.sub app]. rewrite IH by discriminate. reflexivity.
Qed.

(** ** reading the pattern *)
Lemma repeat_In (x y : N) n : In x (repeat y n) -> x = y.
Proof. apply repeat_spec. Qed.
Lemma count_repeat_same x n : count_char x (repeat x n) = n.
Proof. unfold count_char. induction n as [|n IH]; cbn; [reflexivity|]. rewrite N.eqb_refl. cbn. rewrite IH. reflexivity. Qed.
Lemma count_repeat_other x y n : x <> y -> count_char x (repeat y n) = 0%nat.
Proof.
  intros H. unfold count_char. induction n as [|n IH]; cbn; [reflexivity|]. destruct (N.eqb_spec x y); [contradiction|exact IH].
Qed.
Lemma count_app x a b : count_char x (a ++ b) = (count_char x a + count_char x b)%nat.
Proof. unfold count_char. rewrite filter_app, app_length. reflexivity. Qed.
Lemma repeat_rev (x : N) n : rev (repeat x n) = repeat x n.
Proof.
  induction n as [|n IH]; [reflexivity|]. cbn [repeat rev]. rewrite IH. clear. induction n; cbn; [reflexivity|]. rewrite IHn. reflexivity.
Qed.
Lemma count_prefix_repeat x n s : (match s with c :: _ => c <> x | [] => True end) -> count_prefix x (repeat x n ++ s) = n.
Proof.
  intros H. induction n as [|n IH]; cbn [repeat app count_prefix].
  - destruct s as [|c s]; [reflexivity|]. cbn. destruct (N.eqb_spec c x); [contradiction|reflexivity].
  - rewrite N.eqb_refl, IH. reflexivity.
Qed.
Definition frac_text (frac : option (nat * nat)) : pystr :=
  match frac with Some (a, b) => lit "." ++ repeat 48 a ++ repeat 35 b | None => [] end.
Definition patchars (s : pystr) : Prop := Forall (fun c => c = 35 \/ c = 48 \/ c = 44) s.
Lemma patchars_repeat x n : x = 35 \/ x = 48 \/ x = 44 -> patchars (repeat x n).
Proof. intros H. apply Forall_forall. intros c Hc. apply repeat_spec in Hc. subst. exact H. Qed.
Lemma patchars_absent s c : patchars s -> c <> 35 -> c <> 48 -> c <> 44 -> ~ In c s.
Proof. intros H H1 H2 H3 Hin. eapply Forall_forall in H; [|exact Hin]. cbn in H. destruct H as [?|[?|?]]; congruence. Qed.

Lemma frac_In c frac : In c (frac_text frac) -> c = 46 \/ c = 48 \/ c = 35.
Proof.
  destruct frac as [[a b]|]; [|contradiction]. unfold frac_text. rewrite !in_app_iff.
  intros [[<-|[]]|[H|H]]; [auto| |]; apply repeat_spec in H; auto.
Qed.
Lemma decimal_count_zeros n s : decimal_count (repeat 48 n ++ s) = (n + decimal_count s)%nat.
Proof. induction n as [|n IH]; [reflexivity|]. cbn [repeat app decimal_count]. cbn [N.eqb Pos.eqb orb]. rewrite IH. reflexivity. Qed.
Lemma decimal_count_hashes n : decimal_count (repeat 35 n) = n.
Proof. induction n as [|n IH]; [reflexivity|]. cbn [repeat app decimal_count]. cbn [N.eqb Pos.eqb orb]. rewrite IH. reflexivity. Qed.
Lemma significant_count_zeros n b : significant_count (repeat 48 n ++ repeat 35 b) = n.
Proof.
  induction n as [|n IH]; [destruct b; reflexivity|]. cbn [repeat app significant_count]. cbn [N.eqb Pos.eqb]. rewrite IH. reflexivity.
Qed.
(** integral part [ip] of a pattern followed by [frac] *)
Lemma pattern_read ip frac : patchars ip ->
  exists P, number_pattern (ip ++ frac_text frac) = Ok P /\ before 46 (np_positive P) = ip
    /\ decimal_digits P = match frac with Some (a, b) => (a + b)%nat | None => 0%nat end
    /\ significant_decimal_digits P = match frac with Some (a, b) => a | None => 0%nat end
    /\ exponent_digits P = 0%nat.
Proof.
  intros Hip. set (p := ip ++ frac_text frac).
  assert (Hp : forall c, c <> 35 -> c <> 48 -> c <> 44 -> c <> 46 -> ~ In c p).
  { intros c H1 H2 H3 H4 Hin. apply in_app_or in Hin. destruct Hin as [Hin|Hin].
    - revert Hin. apply patchars_absent; assumption.
    - apply frac_In in Hin. destruct Hin as [?|[?|?]]; congruence. }
  assert (Hcnt : count_char 59 p = 0%nat).
  { unfold count_char. assert (filter (N.eqb 59) p = []) as ->; [|reflexivity].
    assert (H59 : ~ In 59 p) by (apply Hp; lia). clear - H59. induction p as [|x q IH]; [reflexivity|]. cbn [filter].
    destruct (N.eqb_spec 59 x) as [<-|]; [exfalso; apply H59; left; reflexivity|]. apply IH. intros H; apply H59; right; exact H. }
  exists {| np_positive := p |}. unfold number_pattern. rewrite Hcnt. cbn [Nat.leb np_positive].
  rewrite (proj1 (before_none 59 p ltac:(apply Hp; lia))).
  split; [reflexivity|].
  assert (Hba : before 46 p = ip /\ after 46 p = match frac with Some (a, b) => repeat 48 a ++ repeat 35 b | None => [] end).
  { unfold p. destruct frac as [[a b]|]; cbn [frac_text].
    - change (lit "." ++ repeat 48 a ++ repeat 35 b) with (46 :: repeat 48 a ++ repeat 35 b).
      apply before_absent. apply patchars_absent; auto; lia.
    - rewrite app_nil_r. apply before_none. apply patchars_absent; auto; lia. }
  destruct Hba as [Hb Ha]. split; [exact Hb|].
  unfold decimal_digits, significant_decimal_digits, exponent_digits. cbn [np_positive]. rewrite Ha.
  split; [|split].
  - destruct frac as [[a b]|]; [|reflexivity]. rewrite decimal_count_zeros, decimal_count_hashes. reflexivity.
  - destruct frac as [[a b]|]; [|reflexivity]. apply significant_count_zeros.
  - assert (H101 : ~ In 101 (ascii_lower p)).
    { rewrite ascii_lower_id; [apply Hp; lia|].
      intros c Hc. destruct (is_upper c) eqn:E; [|reflexivity]. exfalso. revert Hc. apply Hp; unfold is_upper in E; lia. }
    rewrite (proj2 (before_none _ _ H101)). reflexivity.
Qed.

(** ** reading the number *)
Lemma pat_digits_digs s : digs s -> pat_digits s = s.
Proof.
  unfold pat_digits. induction 1 as [|c s Hc _ IH]; [reflexivity|]. cbn [filter]. rewrite IH.
  assert (E : char_mem c [46; 44; 69; 43; 45; 37; 8240] = false).
  { apply char_mem_false. cbn. lia. }
  rewrite E. reflexivity.
Qed.
Definition sgn (neg plus : bool) : pystr := if neg then lit "-" else if plus then lit "+" else [].
Lemma pat_digits_sgn neg plus s : digs s -> pat_digits (sgn neg plus ++ s) = s.
Proof.
  intros H. unfold pat_digits in *. rewrite filter_app.
  change (filter (fun c : N => negb (char_mem c [46; 44; 69; 43; 45; 37; 8240])) s) with (pat_digits s).
  rewrite (pat_digits_digs s H). destruct neg, plus; reflexivity.
Qed.
Lemma significant_loop_tail s lead : digs s -> significant_loop false lead s = (length s, lead).
Proof.
  induction 1 as [|c s Hc _ IH]; [reflexivity|]. cbn [significant_loop].
  assert (E : char_mem c [43; 45; 37] = false) by (apply char_mem_false; cbn; lia). rewrite E, andb_false_r.
  destruct (c =? 48); rewrite IH; reflexivity.
Qed.
Lemma significant_loop_spec s lead : digs s ->
  significant_loop true lead s = (length (strip_zeros s), lead || Nat.ltb (length (strip_zeros s)) (length s)).
Proof.
  intros H. revert lead. induction H as [|c s Hc Hs IH]; intros lead; [cbn; rewrite orb_false_r; reflexivity|].
  cbn [significant_loop strip_zeros].
  assert (E : char_mem c [43; 45; 37] = false) by (apply char_mem_false; cbn; lia). rewrite E, andb_true_r.
  destruct (N.eqb_spec c 48) as [->|Hn].
  - rewrite IH. cbn [length orb]. f_equal. rewrite orb_true_r || idtac.
    assert (L : (length (strip_zeros s) <= length s)%nat).
    { clear. induction s as [|x s IH]; cbn [strip_zeros length]; [lia|]. destruct (x =? 48); cbn [length]; lia. }
    destruct lead; cbn [orb]; [reflexivity|]. symmetry. apply Nat.ltb_lt. lia.
  - rewrite significant_loop_tail by exact Hs. cbn [fst snd length]. rewrite Nat.ltb_irrefl, orb_false_r. reflexivity.
Qed.
Lemma significant_length_spec neg plus s : digs s -> significant_length (sgn neg plus ++ s) = significant_digits s.
Proof.
  intros H. unfold significant_length.
  assert (E : significant_loop true false (sgn neg plus ++ s) = significant_loop true false s).
  { destruct neg, plus; reflexivity. }
  rewrite E, significant_loop_spec by exact H. cbn [fst snd orb]. unfold significant_digits.
  destruct s as [|c s]; [reflexivity|]. set (n := length (strip_zeros (c :: s))). destruct n; [reflexivity|]. reflexivity.
Qed.

Lemma last_map {A B} (f : A -> B) l d : f (last l d) = last (map f l) (f d).
Proof. induction l as [|x l IH]; [reflexivity|]. destruct l; [reflexivity|]. cbn [last map] in *. exact IH. Qed.
Lemma removelast_map {A B} (f : A -> B) l : map f (removelast l) = removelast (map f l).
Proof. induction l as [|x l IH]; [reflexivity|]. destruct l; [reflexivity|]. cbn [removelast map] in *. rewrite IH. reflexivity. Qed.

(** is_valid in terms of the digit groups *)
Lemma is_valid_grouped P neg plus gs (point : bool) fp :
  Forall (fun g => digs g) gs -> gs <> [] -> digs fp -> (point = false -> fp = []) -> exponent_digits P = 0%nat ->
  let pg := primary_grouping_size P in let sg := secondary_grouping_size P in
  is_valid P (grouped_numeral neg plus gs point fp) = true <->
  (min_digits_before P = 0 \/ min_digits_before P <= significant_digits (concat gs))%nat
  /\ (forall k, pg = Some (S k) -> (length (last gs []) <= S k /\ (1 < length gs -> length (last gs []) = S k))%nat)
  /\ (forall k, sg = Some (S k) -> forall g g' rest, gs = g :: g' :: rest ->
        (length g <= S k)%nat /\ Forall (fun x => length x = S k) (removelast (g' :: rest)))
  /\ (length fp <= decimal_digits P)%nat /\ (significant_decimal_digits P <= length fp)%nat.
Proof.
  intros Hgs Hne Hfp Hpt Hexp pg sg. unfold is_valid. cbv zeta.
  replace (grouped_numeral neg plus gs point fp) with (sgn neg plus ++ join (lit ",") gs ++ (if point then lit "." ++ fp else [])) by reflexivity.
  set (s := sgn neg plus ++ join (lit ",") gs ++ (if point then lit "." ++ fp else [])).
  assert (Hj : forall c, In c (join (lit ",") gs) -> 48 <= c <= 57 \/ c = 44).
  { clear - Hgs. induction Hgs as [|g gs Hg Hgs IH]; [contradiction|]. intros c Hc.
    destruct gs as [|h gs]; [left; eapply Forall_forall in Hg; [|exact Hc]; exact Hg|].
    cbn [join] in Hc. rewrite !in_app_iff in Hc. destruct Hc as [Hc|[[<-|[]]|Hc]].
    - left; eapply Forall_forall in Hg; [|exact Hc]; exact Hg.
    - right. reflexivity.
    - apply IH, Hc. }
  assert (Hsg : forall c, In c (sgn neg plus) -> c = 43 \/ c = 45).
  { destruct neg, plus; cbn; intros c Hc; repeat destruct Hc as [<-|Hc]; auto; contradiction. }
  assert (Hint : before 46 s = sgn neg plus ++ join (lit ",") gs /\ after 46 s = fp).
  { unfold s. destruct point.
    - rewrite app_assoc. change (lit "." ++ fp) with (46 :: fp). apply before_absent.
      rewrite in_app_iff. intros [H|H]; [apply Hsg in H|apply Hj in H]; lia.
    - rewrite app_nil_r, (Hpt eq_refl). apply before_none.
      rewrite in_app_iff. intros [H|H]; [apply Hsg in H|apply Hj in H]; lia. }
  destruct Hint as [E1 E2]. rewrite E1, E2.
  assert (Hlow : forall t, digs t -> ascii_lower t = t).
  { intros t Ht. apply ascii_lower_id. intros c Hc. eapply Forall_forall in Ht; [|exact Hc]. unfold is_upper. cbn in Ht. lia. }
  rewrite (Hlow fp Hfp).
  assert (Hb101 : before 101 fp = fp).
  { apply before_none. intros Hin. eapply Forall_forall in Hfp; [|exact Hin]. cbn in Hfp. lia. }
  rewrite Hb101, (pat_digits_digs fp Hfp), Hexp.
  change (Nat.ltb 0 0) with false. cbn [andb negb]. rewrite andb_true_r.
  destruct gs as [|g1 gs]; [congruence|]. pose proof (Forall_inv Hgs) as Hg1. pose proof (Forall_inv_tail Hgs) as Hgs'. cbv beta in Hg1.
  set (groups := ((sgn neg plus ++ g1) : pystr) :: gs).
  assert (Hgr : split (lit ",") (sgn neg plus ++ join (lit ",") (g1 :: gs)) = groups).
  { replace (sgn neg plus ++ join (lit ",") (g1 :: gs)) with (join [44] groups).
    - apply split_join; [discriminate|]. constructor.
      + rewrite in_app_iff. intros [H|H]; [apply Hsg in H; lia|]. eapply Forall_forall in Hg1; [|exact H]. cbn in Hg1. lia.
      + eapply Forall_impl; [|exact Hgs']. intros g Hg Hin. eapply Forall_forall in Hg; [|exact Hin]. cbn in Hg. lia.
    - unfold groups. destruct gs; [reflexivity|]. cbn [join]. rewrite <- app_assoc. reflexivity. }
  rewrite Hgr.
  assert (Hpd : map pat_digits groups = g1 :: gs).
  { unfold groups. cbn [map]. rewrite pat_digits_sgn by exact Hg1. f_equal.
    clear - Hgs'. induction Hgs' as [|g gs Hg _ IH]; [reflexivity|]. cbn [map]. rewrite IH, pat_digits_digs by exact Hg. reflexivity. }
  assert (Hlast : pat_digits (last_or [] groups) = last (g1 :: gs) []).
  { unfold last_or. rewrite (last_map pat_digits groups []), Hpd. reflexivity. }
  rewrite Hlast.
  assert (Hlen : length groups = length (g1 :: gs)) by reflexivity. rewrite Hlen.
  assert (Hsig : significant_length (concat groups) = significant_digits (concat (g1 :: gs))).
  { unfold groups. cbn [concat]. rewrite <- app_assoc. apply significant_length_spec.
    change (digs (concat (g1 :: gs))). clear - Hgs. induction Hgs; cbn; [constructor|]. apply Forall_app; auto. }
  rewrite Hsig. fold pg sg.
  set (L := last (g1 :: gs) []). set (n := length (g1 :: gs)).
  rewrite !andb_true_iff.
  assert (Q1 : negb (Nat.ltb 0 (min_digits_before P) && Nat.ltb (significant_digits (concat (g1 :: gs))) (min_digits_before P)) = true
    <-> (min_digits_before P = 0 \/ min_digits_before P <= significant_digits (concat (g1 :: gs)))%nat) by lia.
  rewrite Q1. clear Q1.
  assert (Q2 : match pg with
     | Some (S k) => negb (Nat.ltb (S k) (length L)) && negb (Nat.ltb 1 n && Nat.ltb (length L) (S k))
     | _ => true end = true
    <-> (forall k, pg = Some (S k) -> (length L <= S k /\ (1 < n -> length L = S k))%nat)).
  { destruct pg as [[|k]|].
    - split; [intros _ k E; discriminate|reflexivity].
    - split.
      + intros H k' E. injection E as <-. lia.
      + intros H. specialize (H k eq_refl). lia.
    - split; [intros _ k E; discriminate|reflexivity]. }
  rewrite Q2. clear Q2.
  assert (Q3 : match sg with
     | Some (S k) =>
         negb (Nat.ltb 1 n)
         || match removelast groups with
            | [] => true
            | g :: gs => Nat.leb (length (pat_digits g)) (S k)
                         && forallb (fun g => Nat.eqb (length (pat_digits g)) (S k)) gs
            end
     | _ => true end = true
    <-> (forall k, sg = Some (S k) -> forall g g' rest, g1 :: gs = g :: g' :: rest ->
        (length g <= S k)%nat /\ Forall (fun x => length x = S k) (removelast (g' :: rest)))).
  { destruct sg as [[|k]|]; try (split; [intros _ k E; discriminate|reflexivity]).
    unfold groups, n. destruct gs as [|g2 gs].
    - split; [|reflexivity]. intros _ k' _ g g' rest E. discriminate.
    - change (Nat.ltb 1 (length (g1 :: g2 :: gs))) with true. cbn [negb orb].
      change (removelast ((sgn neg plus ++ g1) :: g2 :: gs)) with ((sgn neg plus ++ g1) :: removelast (g2 :: gs)).
      cbv iota beta. rewrite pat_digits_sgn by exact Hg1.
      assert (Hm : forall l, Forall (fun g => digs g) l ->
          forallb (fun g => Nat.eqb (length (pat_digits g)) (S k)) l = true <-> Forall (fun x => length x = S k) l).
      { clear. induction 1 as [|x l Hx _ IH]; [split; [constructor|reflexivity]|]. cbn [forallb].
        rewrite andb_true_iff, IH, pat_digits_digs, Nat.eqb_eq by exact Hx. split.
        - intros [? ?]. constructor; assumption.
        - intros H. inversion H; auto. }
      rewrite andb_true_iff, Nat.leb_le, Hm.
      + split.
        * intros H k' E g g' rest Eg. injection E as <-. injection Eg as -> -> ->. exact H.
        * intros H. apply (H k eq_refl g1 g2 gs eq_refl).
      + apply Forall_forall. intros x Hx. eapply Forall_forall in Hgs'; [exact Hgs'|].
        clear - Hx. revert g2 Hx. induction gs as [|y gs IH]; intros g2 Hx; [contradiction|].
        cbn [removelast] in Hx. destruct Hx as [<-|Hx]; [left; reflexivity|]. right. apply IH, Hx. }
  rewrite Q3. clear Q3.
  assert (Q4 : match fp with [] => true | _ => Nat.leb (length fp) (decimal_digits P) end = true
     <-> (length fp <= decimal_digits P)%nat) by (destruct fp; [cbn [length]; lia|apply Nat.leb_le]).
  rewrite Q4. clear Q4.
  assert (Q5 : Nat.eqb (significant_decimal_digits P) 0
      || match fp with [] => false | _ => Nat.leb (significant_decimal_digits P) (length fp) end = true
     <-> (significant_decimal_digits P <= length fp)%nat) by (destruct fp; [cbn [length]; lia|lia]).
  rewrite Q5. tauto.
Qed.

Lemma frac_split frac n :
  frac_ok frac n <-> (n <= match frac with Some (a, b) => a + b | None => 0 end
                     /\ match frac with Some (a, b) => a | None => 0 end <= n)%nat.
Proof. destruct frac as [[a b]|]; cbn [frac_ok]; lia. Qed.

Theorem plain_pattern_valid hashes zs frac neg plus ip (point : bool) fp :
  numeral_ok ip point fp ->
  exists P, number_pattern (plain_pattern hashes zs frac) = Ok P
    /\ (is_valid P (numeral neg plus ip point fp) = true <->
        (zs = 0 \/ zs <= significant_digits ip)%nat /\ frac_ok frac (length fp)).
Proof.
  intros (Hd & _ & Hp). apply Forall_app in Hd. destruct Hd as [Hip Hfp].
  assert (Hpc : patchars (repeat 35 hashes ++ repeat 48 zs)).
  { apply Forall_app. split; apply patchars_repeat; auto. }
  destruct (pattern_read _ frac Hpc) as (P & EP & Eb & Ed & Es & Ee).
  exists P. unfold plain_pattern. rewrite app_assoc. split; [exact EP|].
  assert (Hcomma : ~ In 44 (repeat 35 hashes ++ repeat 48 zs)).
  { rewrite in_app_iff. intros [H|H]; apply repeat_spec in H; discriminate. }
  assert (Hsplit : split (lit ",") (repeat 35 hashes ++ repeat 48 zs) = [repeat 35 hashes ++ repeat 48 zs]).
  { apply (split_join 44 [repeat 35 hashes ++ repeat 48 zs]); [discriminate|]. constructor; [exact Hcomma|constructor]. }
  pose proof (is_valid_grouped P neg plus [ip] point fp) as V. cbv zeta in V.
  change (grouped_numeral neg plus [ip] point fp) with (numeral neg plus ip point fp) in V.
  rewrite V; [|constructor; [exact Hip|constructor]|discriminate|exact Hfp|exact Hp|exact Ee]. clear V.
  unfold secondary_grouping_size, primary_grouping_size. rewrite Eb, Hsplit.
  assert (Hm : min_digits_before P = zs).
  { unfold min_digits_before. rewrite Eb, rev_app_distr, !repeat_rev. apply count_prefix_repeat.
    destruct hashes; cbn; [exact I|discriminate]. }
  rewrite Hm, Ed, Es, frac_split. cbn [concat]. rewrite app_nil_r.
  split; [tauto|]. intros (H1 & H2 & H3). repeat split; try assumption; try discriminate.
Qed.

Theorem grouped_pattern_valid hashes q p k frac neg plus gs (point : bool) fp :
  (k <= p)%nat -> (0 < p)%nat -> (forall n, q = Some n -> (0 < n)%nat) ->
  Forall (fun g => Forall (fun c => 48 <= c <= 57) g) gs -> gs <> [] -> numeral_ok (concat gs) point fp ->
  exists P, number_pattern (grouped_pattern hashes q p k frac) = Ok P
    /\ (is_valid P (grouped_numeral neg plus gs point fp) = true <->
        (k = 0 \/ k <= significant_digits (concat gs))%nat
        /\ groups_ok (match q with Some n => n | None => p end) p gs
        /\ frac_ok frac (length fp)).
Proof.
  intros Hk Hp0 Hq0 Hgs Hne (Hd & _ & Hp). apply Forall_app in Hd. destruct Hd as [_ Hfp].
  set (comps := repeat 35 hashes :: match q with Some q => [repeat 35 q] | None => [] end ++ [repeat 35 (p - k) ++ repeat 48 k]).
  assert (Eip : grouped_pattern hashes q p k frac = join [44] comps ++ frac_text frac).
  { unfold grouped_pattern, comps. change (lit ",") with [44]. destruct q as [q|]; cbn [join app]; repeat (rewrite <- ?app_assoc; cbn [app]); reflexivity. }
  assert (Hcc : Forall patchars comps).
  { unfold comps. constructor; [apply patchars_repeat; auto|]. apply Forall_app. split.
    - destruct q; constructor; [apply patchars_repeat; auto|constructor].
    - constructor; [|constructor]. apply Forall_app. split; apply patchars_repeat; auto. }
  assert (Hnc : Forall (fun g => ~ In 44 g) comps).
  { unfold comps. constructor; [intros H; apply repeat_spec in H; discriminate|]. apply Forall_app. split.
    - destruct q; constructor; [intros H; apply repeat_spec in H; discriminate|constructor].
    - constructor; [|constructor]. rewrite in_app_iff. intros [H|H]; apply repeat_spec in H; discriminate. }
  assert (Hpc : patchars (join [44] comps)).
  { clear - Hcc. induction Hcc as [|g l Hg Hl IH]; [constructor|]. destruct l as [|h l]; [exact Hg|].
    cbn [join] in *. apply Forall_app. split; [exact Hg|]. apply Forall_app. split; [constructor; [auto|constructor]|exact IH]. }
  destruct (pattern_read _ frac Hpc) as (P & EP & Eb & Ed & Es & Ee).
  exists P. rewrite Eip. split; [exact EP|].
  assert (Hsplit : split (lit ",") (join [44] comps) = comps) by (apply split_join; [discriminate|exact Hnc]).
  rewrite is_valid_grouped by assumption.
  assert (Hcnt : forall n, (count_char 35 (repeat 35%N n) + count_char 48 (repeat 35%N n) = n)%nat).
  { intros n. rewrite count_repeat_same, count_repeat_other by discriminate. lia. }
  assert (Hprim : primary_grouping_size P = Some p).
  { unfold primary_grouping_size. rewrite Eb, Hsplit. unfold comps, last_or.
    assert (Hl : last (repeat 35 hashes :: match q with Some q => [repeat 35 q] | None => [] end ++ [repeat 35 (p - k) ++ repeat 48 k]) [] = repeat 35 (p - k) ++ repeat 48 k).
    { destruct q; reflexivity. }
    unfold pystr in *. rewrite Hl, !count_app, !count_repeat_same, !count_repeat_other by discriminate.
    destruct q; cbn [app]; f_equal; lia. }
  assert (Hsec : secondary_grouping_size P = Some (match q with Some n => n | None => p end)).
  { unfold secondary_grouping_size. rewrite Eb, Hsplit, Hprim. unfold comps. destruct q as [n|]; cbn [app]; [|reflexivity].
    rewrite Hcnt. reflexivity. }
  assert (Hm : min_digits_before P = k).
  { unfold min_digits_before. rewrite Eb. unfold comps.
    assert (Hr : exists r, join [44] (repeat 35 hashes :: match q with Some q => [repeat 35 q] | None => [] end ++ [repeat 35 (p - k) ++ repeat 48 k])
       = (r ++ [44]) ++ repeat 35 (p - k) ++ repeat 48 k).
    { destruct q as [n|]; cbn [join app].
      - exists (repeat 35 hashes ++ 44 :: repeat 35 n). repeat (rewrite <- ?app_assoc; cbn [app]). reflexivity.
      - exists (repeat 35 hashes). rewrite <- !app_assoc. reflexivity. }
    destruct Hr as [r Hr]. rewrite Hr, !rev_app_distr, !repeat_rev, <- app_assoc. apply count_prefix_repeat.
    destruct (p - k)%nat; cbn; discriminate. }
  rewrite Hprim, Hsec, Hm, Ed, Es, frac_split.
  set (Q := match q with Some n => n | None => p end). assert (HQ : (0 < Q)%nat) by (unfold Q; destruct q; [apply Hq0; reflexivity|exact Hp0]).
  assert (Hgo : groups_ok Q p gs <->
    (forall k0, Some p = Some (S k0) -> (length (last gs []) <= S k0 /\ (1 < length gs -> length (last gs []) = S k0))%nat)
    /\ (forall k0, Some Q = Some (S k0) -> forall g g' rest, gs = g :: g' :: rest ->
        (length g <= S k0)%nat /\ Forall (fun x => length x = S k0) (removelast (g' :: rest)))).
  { destruct gs as [|g [|g' rest]]; [congruence| |].
    - cbn [groups_ok last length]. split.
      + intros H. split; [|discriminate]. intros k0 E. injection E as ->. lia.
      + intros [H _]. destruct p as [|p']; [lia|]. apply (H p' eq_refl).
    - change (groups_ok Q p (g :: g' :: rest)) with ((length g <= Q)%nat /\ Forall (fun x => length x = Q) (removelast (g' :: rest))
                 /\ length (last (g' :: rest) []) = p).
      change (last (g :: g' :: rest) []) with (last (g' :: rest) []). split.
      + intros (H1 & H2 & H3). split.
        * intros k0 E. injection E as E. rewrite <- E. split; [lia|auto].
        * intros k0 E a b c Eg. injection E as E. injection Eg as <- <- <-. rewrite <- E. auto.
      + intros (H1 & H2). destruct p as [|p']; [lia|]. destruct Q as [|Q']; [lia|].
        destruct (H1 p' eq_refl) as [_ H3]. destruct (H2 Q' eq_refl g g' rest eq_refl) as [H4 H5].
        repeat split; auto. apply H3. cbn [length]. lia. }
  rewrite Hgo. tauto.
Qed.
