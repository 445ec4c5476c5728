(** JSON literals of dates and times are read back. *)
From Verif Require Import PyStr Dec DecProofs DecProofs2 NamesProofs PatternProofs BasicProofs Numeric Dates DateSpec DateProofs DateProofs2 Fmtval FmtvalSpec FmtvalProofs.
From Coq Require Import ZifyBool ZifyN ZifyNat.

Lemma div10 v : v < 100 -> v / 10 < 10 /\ v mod 10 < 10.
Proof. intros H. split; [apply N.div_lt_upper_bound; lia|apply N.mod_lt; lia]. Qed.
Lemma zone_six z : z <> 0%Z -> (-1440 < z < 1440)%Z -> exists sg h1 h2 m1 m2, zone_text (Some z) = [sg; h1; h2; 58; m1; m2]
  /\ is_digit m2 = true /\ (48 <= m1 <= 53) /\ is_digit h2 = true /\ (48 <= h1 <= 50) /\ (sg = 43 \/ sg = 45) /\ tz_offset [sg; h1; h2; 58; m1; m2] = z.
Proof.
  intros Z0 Z. unfold zone_text. apply Z.eqb_neq in Z0 as E. rewrite E.
  set (a := Z.to_N (Z.abs z)). assert (A : 0 < a < 1440) by lia.
  assert (H1 : a / 60 < 24) by (apply N.div_lt_upper_bound; lia). assert (H2 : a mod 60 < 60) by (apply N.mod_lt; lia).
  rewrite (pad2 (a / 60)), (pad2 (a mod 60)) by lia.
  destruct (div10 (a / 60)) as [B1 B2]; [lia|]. destruct (div10 (a mod 60)) as [B3 B4]; [lia|].
  exists (if (z <? 0)%Z then 45 else 43), (48 + a / 60 / 10), (48 + (a / 60) mod 10), (48 + a mod 60 / 10), (48 + (a mod 60) mod 10).
  assert (a / 60 / 10 <= 2) by (assert (a / 60 / 10 < 3) by (apply N.div_lt_upper_bound; lia); lia).
  assert (a mod 60 / 10 <= 5) by (assert (a mod 60 / 10 < 6) by (apply N.div_lt_upper_bound; lia); lia).
  repeat split; try lia.
  - destruct (z <? 0)%Z; reflexivity.
  - apply is_digit_iff; lia.
  - apply is_digit_iff; lia.
  - destruct (z <? 0)%Z; auto.
  - unfold tz_offset.
    assert (V : forall v, v < 100 -> val_digits [48 + v / 10; 48 + v mod 10] = v).
    { intros v Hv. rewrite <- (pad2 v Hv). apply val_pad. }
    rewrite !V by lia. pose proof (N.div_mod a 60 ltac:(lia)) as DM. rewrite <- DM. unfold a. destruct (z <? 0)%Z eqn:S.
    + change (45 =? 45) with true. cbv iota. lia.
    + change (43 =? 45) with false. cbv iota. lia.
Qed.
Lemma tz_found t z : (-1440 < z < 1440)%Z -> exists w, tz_search (t ++ zone_text (Some z)) = Some (t, w) /\ tz_offset w = z.
Proof.
  intros Z. destruct (Z.eq_dec z 0) as [->|Z0].
  - exists (lit "Z"). split; [|reflexivity]. change (zone_text (Some 0%Z)) with [90]. unfold tz_search, tz_at. rewrite rev_app_distr. cbn [rev app].
    change (90 =? 90) with true. cbv iota. rewrite rev_involutive. reflexivity.
  - destruct (zone_six z Z0 Z) as (sg & h1 & h2 & m1 & m2 & E & M2 & M1 & H2 & H1 & S & T).
    exists [sg; h1; h2; 58; m1; m2]. split; [|exact T]. rewrite E. unfold tz_search, tz_at. rewrite rev_app_distr. cbn [rev app].
    pose proof M2 as M2'. apply is_digit_iff in M2'. replace (m2 =? 90) with false by lia.
    rewrite M2, H2. replace ((48 <=? m1) && (m1 <=? 53)) with true by lia. replace ((48 <=? h1) && (h1 <=? 50)) with true by lia.
    replace ((sg =? 43) || (sg =? 45)) with true by lia. change (58 =? 58) with true. cbn [andb]. rewrite rev_involutive. reflexivity.
Qed.
(** no timezone in a date or a time *)
Lemma tz_none t a b c r : rev t = c :: b :: a :: r -> is_digit c = true -> (a <> 58 \/ match r with _ :: _ :: sg :: _ => sg <> 43 /\ sg <> 45 | _ => True end) -> tz_search t = None.
Proof.
  intros E C A. apply is_digit_iff in C. unfold tz_search, tz_at. rewrite E. replace (c =? 90) with false by lia. replace (c =? 10) with false by lia.
  destruct r as [|x [|x' [|sg r]]]; try reflexivity.
  match goal with |- match (if ?k then _ else _) with _ => _ end = _ => replace k with false; [reflexivity|] end.
  destruct A as [A|[A1 A2]].
  - replace (a =? 58) with false by lia. rewrite !andb_false_r. reflexivity.
  - replace (sg =? 43) with false by lia. replace (sg =? 45) with false by lia. rewrite andb_false_r. reflexivity.
Qed.
Lemma dig v : v < 100 -> is_digit (48 + v / 10) = true /\ is_digit (48 + v mod 10) = true.
Proof. intros H. destruct (div10 v H). split; apply is_digit_iff; lia. Qed.
Lemma tz_date x : d x < 100 -> tz_search (date_text iso_date x) = None.
Proof.
  intros D. rewrite date_text_eq. rewrite (pad2 (d x)) by auto.
  eapply tz_none.
  - rewrite !app_assoc, rev_app_distr. change (lit "-") with [45]. rewrite rev_app_distr. cbn [rev app]. reflexivity.
  - apply dig; auto.
  - left. lia.
Qed.
Lemma tz_clock x w : h x < 100 -> mi x < 100 -> s x < 100 -> all_digits w = true -> tz_search (clock_text iso_clock x ++ frac_part w) = None.
Proof.
  intros H M S W. rewrite clock_text_eq, (pad2 (h x)), (pad2 (mi x)), (pad2 (s x)) by auto. change (lit ":") with [58].
  destruct (dig (s x) S) as [S1 S2]. apply is_digit_iff in S1 as S1', S2 as S2'.
  destruct (dig (mi x) M) as [M1 M2]. apply is_digit_iff in M1 as M1', M2 as M2'.
  destruct w as [|c w _] using rev_ind.
  - cbn [frac_part]. rewrite app_nil_r. eapply tz_none; [cbn [app rev]; reflexivity|auto|]. right. lia.
  - assert (F : frac_part (w ++ [c]) = 46 :: w ++ [c]) by (destruct w; reflexivity). rewrite F.
    unfold all_digits in W. rewrite forallb_app in W. apply andb_prop in W as [W C]. cbn [forallb] in C. rewrite andb_true_r in C.
    destruct w as [|b w _] using rev_ind.
    + eapply tz_none; [cbn [app rev]; reflexivity|auto|]. left. lia.
    + rewrite forallb_app in W. apply andb_prop in W as [W B]. destruct w as [|a w _] using rev_ind.
      * eapply tz_none; [cbn [app rev]; reflexivity|auto|]. left. lia.
      * rewrite forallb_app in W. apply andb_prop in W as [_ A]. cbn [forallb] in A. rewrite andb_true_r in A. apply is_digit_iff in A.
        eapply tz_none; [|exact C|left; instantiate (1 := a); lia].
        rewrite rev_app_distr. cbn [rev]. rewrite !rev_app_distr. cbn [rev app]. reflexivity.
Qed.
Lemma with_tz_literal (f : pystr -> res aware) t o x : zone_ok o -> tz_search t = None -> f t = Ok (x, None) -> with_tz f (t ++ zone_text o) = Ok (x, o).
Proof.
  intros Z N F. unfold with_tz. destruct o as [z|].
  - destruct (tz_found t z Z) as (w & E & T). rewrite E, F. cbn [bind fst]. rewrite T. reflexivity.
  - cbn [zone_text]. rewrite app_nil_r, N. exact F.
Qed.
Lemma strip_literal k x w o : kind_ok k -> all_digits w = true -> zone_ok o -> strip (kind_text k x w ++ zone_text o) = kind_text k x w ++ zone_text o.
Proof.
  intros K W Z. destruct (kind_text_ends k x w K W) as (a & b & m & m' & E1 & E2 & A & B).
  destruct o as [z|]; [|cbn [zone_text]; rewrite app_nil_r; apply kind_text_strip; auto].
  apply strip_fixed. right. exists a. cbn [zone_ok] in Z. destruct (Z.eq_dec z 0) as [->|Z0].
  - exists 90. change (zone_text (Some 0%Z)) with [90]. repeat split; eauto using digit_not_space. rewrite E1. eexists; reflexivity.
  - destruct (zone_six z Z0 Z) as (sg & h1 & h2 & m1 & m2 & E & M2 & _). exists m2. rewrite E. repeat split; eauto using digit_not_space.
    + rewrite E1. eexists; reflexivity.
    + exists (kind_text k x w ++ [sg; h1; h2; 58; m1]). rewrite <- app_assoc. reflexivity.
Qed.

Lemma midnight_ok x : dt_ok x = true -> dt_ok (midnight x) = true.
Proof. unfold dt_ok, midnight. cbn [y mo d h mi s us]. lia. Qed.
Theorem date_back iso today x o : dt_ok x = true -> zone_ok o ->
  iso (date_text iso_date x) = None \/ iso (date_text iso_date x) = Some (midnight x, None) ->
  date_to_python iso today (kind_items (KDate iso_date)) (date_text iso_date x ++ zone_text o) = Ok (midnight x, o).
Proof.
  intros D Z I. destruct (dt_ok_max x D) as (By & Bm & Bd & _).
  assert (K : kind_ok (KDate iso_date)) by (left; reflexivity).
  unfold date_to_python. pose proof (strip_literal (KDate iso_date) x [] o K eq_refl Z) as S. cbn [kind_text] in S. rewrite S.
  apply with_tz_literal; [auto|apply tz_date; auto|].
  assert (Dm : dt_ok (said today (KDate iso_date) x []) = true) by (apply midnight_ok; auto).
  pose proof (date_match (KDate iso_date) x [] [] today K eq_refl (le_n _) Dm (or_introl eq_refl)) as M. rewrite app_nil_r in M. cbn [kind_text] in M.
  destruct (rmatch _ _); [|congruence]. destruct I as [-> | ->]; [|reflexivity].
  rewrite (date_parse today (KDate iso_date) x [] [] K eq_refl (le_n _) Dm (or_introl eq_refl)); [reflexivity|].
  rewrite app_nil_r. apply (kind_text_strip (KDate iso_date) x []); auto.
Qed.
Lemma fraction_said u w : fraction u w -> (if Nat.leb (length w) 6 then val_digits w * 10 ^ N.of_nat (6 - length w) else val_digits (firstn 6 w)) = u.
Proof. intros (_ & L & V & _). apply Nat.leb_le in L. rewrite L. exact V. Qed.
Theorem time_back today n x w o : dt_ok x = true -> dt_ok (at_day today x) = true -> zone_ok o -> fraction (us x) w -> (length w <= n)%nat ->
  time_to_python today (kind_items (KTime iso_clock n)) (clock_text iso_clock x ++ frac_part w ++ zone_text o) = Ok (at_day today x, o).
Proof.
  intros D T Z F L. destruct (dt_ok_max x D) as (_ & _ & _ & Bh & Bm & Bs & _). pose proof F as (W & _).
  unfold time_to_python. rewrite app_assoc. apply with_tz_literal; [auto|apply tz_clock; auto|].
  assert (S : said today (KTime iso_clock n) x w = at_day today x) by (unfold said; rewrite (fraction_said _ _ F); reflexivity).
  assert (J : n = O \/ ends_fraction []) by (right; split; [reflexivity|exact I]).
  pose proof (date_parse today (KTime iso_clock n) x w [] I W L) as P. rewrite S in P.
  rewrite (P T J (clock_text iso_clock x ++ frac_part w)); [reflexivity|].
  rewrite app_nil_r. apply (kind_text_strip (KTime iso_clock n)); auto. exact I.
Qed.
Definition iso_both : kind := KBoth iso_date 84 iso_clock 6.
Theorem datetime_back today x w o : dt_ok x = true -> zone_ok o -> fraction (us x) w ->
  dt_parse today (kind_items iso_both) (date_text iso_date x ++ lit "T" ++ clock_text iso_clock x ++ frac_part w ++ zone_text o) = Ok x.
Proof.
  intros D Z F. pose proof F as (W & L & _).
  assert (S : said today iso_both x w = x) by (unfold said, iso_both; rewrite (fraction_said _ _ F); destruct x; reflexivity).
  assert (K : kind_ok iso_both) by (split; [left; reflexivity|right; reflexivity]).
  assert (J : ends_fraction (zone_text o)).
  { unfold ends_fraction. destruct o as [z|]; [|split; [reflexivity|exact I]]. unfold zone_text. destruct (Z.eqb z 0); [split; [reflexivity|cbn; lia]|].
    destruct (Z.ltb z 0); cbn; split; try reflexivity; lia. }
  pose proof (date_parse today iso_both x w (zone_text o) K W L) as P. rewrite S in P.
  apply (P D (or_intror J)).
  assert (E : date_text iso_date x ++ lit "T" ++ clock_text iso_clock x ++ frac_part w ++ zone_text o = kind_text iso_both x w ++ zone_text o).
  { unfold iso_both. cbn [kind_text]. rewrite <- !app_assoc. reflexivity. }
  rewrite E. apply strip_literal; auto.
Qed.
Lemma fraction_unique u w w' : fraction u w -> fraction u w' -> w = w'.
Proof.
  assert (H : forall w w', fraction u w -> fraction u w' -> (length w <= length w')%nat -> w = w').
  { clear. intros w w' (A & L & V & E) (A' & L' & V' & E') Le.
    assert (V2 : val_digits w * 10 ^ N.of_nat (length w' - length w) = val_digits w').
    { assert (P : 10 ^ N.of_nat (6 - length w') <> 0) by (apply N.pow_nonzero; lia).
      apply (N.mul_cancel_r _ _ _ P). rewrite V', <- V, <- N.mul_assoc, <- N.pow_add_r. do 2 f_equal. lia. }
    destruct (Nat.eq_dec (length w) (length w')) as [Q|Q].
    - apply all_digits_inj; auto. rewrite <- V2, Q, Nat.sub_diag. cbn. lia.
    - exfalso. destruct E' as [->|(v & c & -> & C)]; [cbn in *; lia|].
      assert (D : is_digit c = true) by (unfold all_digits in A'; rewrite forallb_forall in A'; apply A', in_or_app; right; left; auto). apply is_digit_iff in D.
      rewrite val_digits_app, val_digits_one in V2. change (10 ^ N.of_nat (length [c])) with 10 in V2.
      rewrite app_length in *. cbn [length] in *. destruct (length v + 1 - length w)%nat as [|k] eqn:K; [lia|].
      rewrite Nat2N.inj_succ, N.pow_succ_r' in V2.
      assert (M : (val_digits w * (10 * 10 ^ N.of_nat k)) mod 10 = 0) by (replace (val_digits w * (10 * 10 ^ N.of_nat k)) with (val_digits w * 10 ^ N.of_nat k * 10) by lia; apply N.mod_mul; lia).
      rewrite V2, N.add_comm, N.mod_add, N.mod_small in M by lia. lia. }
  intros F F'. destruct (Nat.le_ge_cases (length w) (length w')); [auto|symmetry; auto].
Qed.
