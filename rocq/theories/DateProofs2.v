(** C21: parsing. *)
From Verif Require Import PyStr Dec DecProofs DecProofs2 NamesProofs PatternProofs BasicProofs Dates DateSpec DateProofs.
From Coq Require Import ZifyBool ZifyN ZifyNat.

(** ** matching *)
Definition no_point (t : pystr) : Prop := match t with c :: _ => c <> 46 | [] => True end.
Inductive fits : list item -> pystr -> list (grp * pystr) -> Prop :=
| F_nil t : fits [] t []
| F_lit c its t gs : fits its t gs -> fits (ILit c :: its) (c :: t) gs
| F_field f lo hi w its t gs : all_digits w = true -> (lo <= length w <= hi)%nat -> (length w = hi \/ next_not_digit t = true) ->
    fits its t gs -> fits (IField f lo hi :: its) (w ++ t) ((GField f, w) :: gs)
| F_frac n w its t gs : all_digits w = true -> (1 <= length w <= n)%nat -> next_not_digit t = true ->
    fits its t gs -> fits (IFrac n :: its) (46 :: w ++ t) ((GMicro, w) :: gs)
| F_nofrac n its t gs : no_point t -> fits its t gs -> fits (IFrac n :: its) t gs
| F_longfrac n w its t gs : all_digits w = true -> (n < length w)%nat ->
    fits its (46 :: w ++ t) gs -> fits (IFrac n :: its) (46 :: w ++ t) gs
| F_extra n w its t gs : all_digits w = true -> (n <= length w)%nat -> next_not_digit t = true ->
    fits its t gs -> fits (IExtra n :: its) (46 :: w ++ t) ((GExtra, w) :: gs)
| F_noextra n its t gs : no_point t -> fits its t gs -> fits (IExtra n :: its) t gs.

Lemma digit_run_app w t : all_digits w = true -> digit_run (w ++ t) = (length w + digit_run t)%nat.
Proof.
  induction w as [|c w IH]; [reflexivity|]. unfold all_digits. cbn [forallb app digit_run length]. intros H. apply andb_prop in H. destruct H as [-> H].
  rewrite IH by exact H. reflexivity.
Qed.
Lemma digit_run_stop t : next_not_digit t = true -> digit_run t = 0%nat.
Proof. destruct t as [|c t]; [reflexivity|]. cbn. destruct (is_digit c); [discriminate|reflexivity]. Qed.
Lemma firstn_len {A} (w t : list A) : firstn (length w) (w ++ t) = w.
Proof. rewrite firstn_app, Nat.sub_diag, firstn_all, firstn_O, app_nil_r. reflexivity. Qed.
Lemma skipn_len {A} (w t : list A) : skipn (length w) (w ++ t) = t.
Proof. rewrite skipn_app, Nat.sub_diag, skipn_all, skipn_O. reflexivity. Qed.
Lemma try_down_first {A} lo (f : nat -> option A) hi r : (lo <= hi)%nat -> f hi = Some r -> try_down lo f hi = Some r.
Proof. intros H E. destruct hi; cbn [try_down]; (replace (Nat.ltb _ lo) with false by (symmetry; apply Nat.ltb_ge; lia)); rewrite E; reflexivity. Qed.
Lemma try_down_none {A} lo (f : nat -> option A) hi : (forall k, (k <= hi)%nat -> f k = None) -> try_down lo f hi = None.
Proof.
  induction hi as [|h IH]; intros H; cbn [try_down]; (destruct (Nat.ltb _ lo); [reflexivity|]); rewrite H by lia; [reflexivity|]. apply IH. intros. apply H. lia.
Qed.
Lemma skipn_digits w t k : all_digits w = true -> (k < length w)%nat -> next_not_digit (skipn k (w ++ t)) = false.
Proof.
  revert k. induction w as [|c w IH]; intros k A L; cbn [length] in L; [lia|]. unfold all_digits in A. cbn [forallb] in A. apply andb_prop in A. destruct A as [Ac A].
  destruct k; cbn [skipn app]; [cbn; rewrite Ac; reflexivity|]. apply IH; [exact A|lia].
Qed.
Theorem fits_match its t gs : fits its t gs -> rmatch its t = Some gs.
Proof.
  induction 1 as [t|c its t gs _ IH|f lo hi w its t gs A L E _ IH|n w its t gs A L E _ IH|n its t gs P _ IH|n w its t gs A L _ IH|n w its t gs A L E _ IH|n its t gs P _ IH]; cbn [rmatch].
  - reflexivity.
  - rewrite N.eqb_refl. exact IH.
  - replace (Nat.min hi (digit_run (w ++ t))) with (length w).
    2:{ rewrite digit_run_app by exact A. destruct E as [E|E]; [lia|]. rewrite (digit_run_stop t E). lia. }
    apply try_down_first; [lia|]. rewrite firstn_len, skipn_len, IH. reflexivity.
  - change (46 =? 46) with true. cbn iota. rewrite (try_down_first 1 _ _ ((GMicro, w) :: gs)); [reflexivity| |].
    + rewrite digit_run_app, digit_run_stop by assumption. lia.
    + rewrite digit_run_app, digit_run_stop by assumption. replace (Nat.min n (length w + 0)) with (length w) by lia.
      rewrite firstn_len, skipn_len, E, IH. reflexivity.
  - rewrite IH. destruct t as [|c t]; [reflexivity|]. cbn in P. replace (c =? 46) with false by lia. reflexivity.
  - change (46 =? 46) with true. cbn iota. rewrite try_down_none; [exact IH|]. intros k Hk. rewrite skipn_digits; [reflexivity|exact A|lia].
  - change (46 =? 46) with true. cbn iota. rewrite (try_down_first n _ _ ((GExtra, w) :: gs)); [reflexivity| |].
    + rewrite digit_run_app, digit_run_stop by assumption. lia.
    + rewrite digit_run_app, digit_run_stop by assumption. rewrite Nat.add_0_r.
      rewrite firstn_len, skipn_len, E, IH. reflexivity.
  - rewrite IH. destruct t as [|c t]; [reflexivity|]. cbn in P. replace (c =? 46) with false by lia. reflexivity.
Qed.

(** ** numbers *)
Lemma val_lower c w : all_digits (c :: w) = true -> c <> 48 -> 10 ^ N.of_nat (length w) <= val_digits (c :: w).
Proof.
  intros A Hc. unfold all_digits in A. cbn [forallb] in A. apply andb_prop in A. destruct A as [A _]. apply is_digit_iff in A.
  rewrite val_digits_cons. assert (1 <= c - 48) by lia. nia.
Qed.
Lemma digits_len v k : (1 <= k)%nat -> v < 10 ^ N.of_nat k -> (1 <= length (digits_of v) <= k)%nat.
Proof.
  intros Hk Hv. destruct (digits_of_spec v) as (V & A & Ne & Lead). destruct (digits_of v) as [|c w] eqn:E; [congruence|]. cbn [length]. split; [lia|].
  destruct (N.eq_dec v 0) as [->|Hn].
  - replace (length w) with 0%nat; [lia|]. vm_compute in E. injection E as _ <-. reflexivity.
  - pose proof (val_lower c w A (Lead Hn _ _ eq_refl)) as Lo. rewrite V in Lo.
    assert (10 ^ N.of_nat (length w) < 10 ^ N.of_nat k) by lia. apply N.pow_lt_mono_r_iff in H; lia.
Qed.
Lemma pad_spec n v : (1 <= n)%nat -> v < 10 ^ N.of_nat n -> all_digits (pad n v) = true /\ length (pad n v) = n /\ val_digits (pad n v) = v.
Proof.
  intros Hn Hv. pose proof (digits_len v n Hn Hv) as L. unfold pad. repeat split.
  - unfold all_digits. rewrite forallb_app. apply andb_true_intro. split; [|apply digits_of_all]. apply forallb_forall. intros c Hc. apply repeat_spec in Hc. subst. reflexivity.
  - rewrite app_length, repeat_length. lia.
  - rewrite val_digits_zeros. apply val_digits_of.
Qed.
Definition num (padded : bool) (v : N) : pystr := if padded then pad 2 v else digits_of v.
Lemma num_spec b v : v < 100 -> all_digits (num b v) = true /\ ((if b then 2 else 1) <= length (num b v) <= 2)%nat /\ val_digits (num b v) = v.
Proof.
  intros H. destruct b; cbn [num].
  - destruct (pad_spec 2 v) as (A & L & V); [lia|exact H|]. repeat split; auto; lia.
  - pose proof (digits_len v 2 ltac:(lia) H). repeat split; try lia; [apply digits_of_all|apply val_digits_of].
Qed.

(** ** the texts *)
Definition date_groups (p : dpat) (x : dt) : list (grp * pystr) :=
  in_order (dp_order p) (GField FYear, pad 4 (y x)) (GField FMonth, num (dp_padded p) (mo x)) (GField FDay, num (dp_padded p) (d x)).
Definition clock_groups (t : tpat) (x : dt) : list (grp * pystr) :=
  [(GField FHour, pad 2 (h x)); (GField FMinute, pad 2 (mi x))] ++ (if tp_secs t then [(GField FSecond, pad 2 (s x))] else []).
Ltac field := eapply F_field; [first [assumption|apply digits_of_all]|first [assumption|split; lia|lia]|first [left; assumption|left; lia|right; reflexivity]|].
Lemma fits_date p x its rest gs : In p documented_dates -> y x < 10000 -> mo x < 100 -> d x < 100 ->
  fits its rest gs -> fits (ditems p ++ its) (date_text p x ++ rest) (date_groups p x ++ gs).
Proof.
  intros Hp Hy Hm Hd F.
  destruct (pad_spec 4 (y x)) as (Ay & Ly & _); [lia|exact Hy|].
  assert (Mo : forall b, fmonth b = IField FMonth (if b then 2 else 1) 2) by reflexivity.
  destruct (num_spec true (mo x) Hm) as (Am & Lm & _). destruct (num_spec false (mo x) Hm) as (Am' & Lm' & _).
  destruct (num_spec true (d x) Hd) as (Ad & Ld & _). destruct (num_spec false (d x) Hd) as (Ad' & Ld' & _).
  unfold num in *.
  cbn in Hp. repeat (destruct Hp as [<-|Hp]; [
    unfold ditems, date_text, date_groups, num; cbn [dp_order dp_sep dp_padded in_order put_sep join intersperse lit String.length fmonth fday];
    cbn -[pad digits_of]; rewrite <- ?app_assoc; cbn [app]; rewrite <- ?app_assoc; cbn [app];
    repeat (first [apply F_lit | field]); exact F|]).
  destruct Hp.
Qed.
Lemma fits_clock t x its rest gs : h x < 100 -> mi x < 100 -> (tp_secs t = true -> s x < 100) ->
  fits its rest gs -> fits (titems t ++ its) (clock_text t x ++ rest) (clock_groups t x ++ gs).
Proof.
  intros Hh Hm Hs F. destruct (num_spec true (h x) Hh) as (A1 & L1 & _). destruct (num_spec true (mi x) Hm) as (A2 & L2 & _). unfold num in *.
  destruct t as [colon [|]]; cbn [tp_secs] in Hs; [destruct (num_spec true (s x) (Hs eq_refl)) as (A3 & L3 & _); unfold num in *|]; destruct colon;
    unfold titems, clock_text, clock_groups; cbn -[pad digits_of]; rewrite <- ?app_assoc; cbn [app]; rewrite <- ?app_assoc; cbn [app];
    repeat (first [apply F_lit | field]); exact F.
Qed.
(** the fraction: [junk] may follow, when it does not continue it *)
Definition ends_fraction (t : pystr) : Prop := next_not_digit t = true /\ no_point t.
Definition frac_groups (w : pystr) : list (grp * pystr) := match w with [] => [] | _ => [(GMicro, w)] end.
Lemma fits_frac n w junk : all_digits w = true -> (length w <= n)%nat -> (n = O \/ ends_fraction junk) ->
  fits (msitems n) (frac_part w ++ junk) (frac_groups w).
Proof.
  intros A L H. destruct n as [|n].
  - destruct w; [|cbn in L; lia]. apply F_nil.
  - destruct H as [H|[H1 H2]]; [lia|]. unfold msitems. destruct w as [|c w].
    + cbn [frac_part app frac_groups]. apply F_nofrac; [exact H2|]. apply F_noextra; [exact H2|]. apply F_nil.
    + change (frac_part (c :: w) ++ junk) with (46 :: (c :: w) ++ junk). unfold frac_groups. apply F_frac; auto; [cbn [length] in *; lia|].
      apply F_noextra; [exact H2|]. apply F_nil.
Qed.
Lemma fits_toolong n w junk : all_digits w = true -> (1 <= n < length w)%nat -> next_not_digit junk = true ->
  fits (msitems n) (frac_part w ++ junk) [(GExtra, w)].
Proof.
  intros A L H. destruct n as [|n]; [lia|]. unfold msitems. destruct w as [|c w]; [cbn in L; lia|].
  change (frac_part (c :: w) ++ junk) with (46 :: (c :: w) ++ junk). apply F_longfrac; [exact A|lia|]. apply F_extra; auto; [lia|]. apply F_nil.
Qed.

Definition kind_items (k : kind) : list item :=
  match k with
  | KDate p => ditems p
  | KTime t n => titems t ++ msitems n
  | KBoth p c t n => ditems p ++ [ILit c] ++ titems t ++ msitems n
  end.
Lemma kind_format_ok k : kind_ok k -> dt_format_and_regex (kind_format k) (kind_no_date k) = Ok {| f_items := kind_items k; f_marker := None |}.
Proof.
  intros H. set (dp := match k with KDate p | KBoth p _ _ _ => Some p | _ => None end).
  set (sep := match k with KBoth _ c _ _ => Some c | _ => None end).
  set (t := match k with KTime t _ | KBoth _ _ t _ => Some t | _ => None end).
  assert (Hd : forall p, dp = Some p -> In p documented_dates) by (destruct k; cbn in *; intros q E; try discriminate; injection E; intros; subst; tauto).
  assert (Hs : forall c, sep = Some c -> c = 32 \/ c = 84) by (destruct k; cbn in *; intros q E; try discriminate; injection E; intros; subst; tauto).
  assert (E : kind_format k = body_text (kind_no_date k) dp sep t (kind_frac k)) by (destruct k; reflexivity).
  unfold dt_format_and_regex. rewrite E, search_marker_none by (apply body_last; assumption). rewrite dt_body_ok by assumption.
  cbn [bind]. f_equal. f_equal. destruct k; reflexivity.
Qed.

Definition kind_groups (k : kind) (x : dt) : list (grp * pystr) :=
  match k with
  | KDate p => date_groups p x
  | KTime t n => clock_groups t x
  | KBoth p c t n => date_groups p x ++ clock_groups t x
  end.
Lemma kind_fits k x w tail rest : kind_ok k ->
  (match k with KTime _ _ => True | _ => y x < 10000 /\ mo x < 100 /\ d x < 100 end) ->
  (match k with KDate _ => True | KTime t _ | KBoth _ _ t _ => h x < 100 /\ mi x < 100 /\ (tp_secs t = true -> s x < 100) end) ->
  (match k with KDate _ => rest = [] | _ => fits (msitems (kind_frac k)) (frac_part w ++ tail) rest end) ->
  fits (kind_items k) (kind_text k x w ++ tail) (kind_groups k x ++ rest).
Proof.
  intros Hk Hd Hc F. destruct k as [p|t n|p c t n]; cbn [kind_items kind_text kind_groups kind_frac] in *.
  - subst rest. pose proof (fits_date p x [] tail [] Hk ltac:(tauto) ltac:(tauto) ltac:(tauto) (F_nil _)) as G. rewrite !app_nil_r in *. exact G.
  - rewrite <- app_assoc. apply fits_clock; tauto.
  - destruct Hk as [Hk _]. rewrite <- !app_assoc. apply fits_date; try tauto. cbn [app]. apply F_lit. rewrite <- ?app_assoc. apply fits_clock; tauto.
Qed.

Lemma dt_ok_bounds r : dt_ok r = true -> y r < 10000 /\ mo r < 100 /\ d r < 100 /\ h r < 100 /\ mi r < 100 /\ s r < 100.
Proof.
  unfold dt_ok. intros H. repeat (apply andb_prop in H; destruct H as [H ?]).
  assert (days_in_month (y r) (mo r) <= 31) by (unfold days_in_month; repeat match goal with |- context [if ?b then _ else _] => destruct b end; lia). lia.
Qed.
(** only the fields that the format mentions must make sense *)
Lemma said_bounds today k x w : dt_ok (said today k x w) = true ->
  (match k with KTime _ _ => True | _ => y x < 10000 /\ mo x < 100 /\ d x < 100 end)
  /\ (match k with KDate _ => True | KTime t _ | KBoth _ _ t _ => h x < 100 /\ mi x < 100 /\ (tp_secs t = true -> s x < 100) end).
Proof.
  intros H. apply dt_ok_bounds in H. destruct k as [p|t n|p c t n]; cbn [said y mo d h mi s] in H.
  - tauto.
  - split; [exact I|]. destruct (tp_secs t); intuition discriminate.
  - split; [tauto|]. destruct (tp_secs t); intuition discriminate.
Qed.
Lemma micro_val w : all_digits w = true ->
  val_digits (pad6 w) = if Nat.leb (length w) 6 then val_digits w * 10 ^ N.of_nat (6 - length w) else val_digits (firstn 6 w).
Proof.
  intros A. unfold pad6. cbv zeta. destruct (Nat.leb (length w) 6) eqn:E.
  - apply Nat.leb_le in E. rewrite firstn_all2 by exact E. rewrite val_digits_app, repeat_length.
    rewrite <- (app_nil_r (repeat 48 _)), val_digits_zeros, val_digits_nil. lia.
  - apply Nat.leb_gt in E. rewrite firstn_length_le by lia. cbn [Nat.sub repeat]. rewrite app_nil_r. reflexivity.
Qed.
Definition read_groups (today : N * N * N) (gs : list (grp * pystr)) : dt :=
  let int g dflt := match lookup g gs with Some t => val_digits t | None => dflt end in
  let tod := match lookup (GField FYear) gs with Some _ => (0, 0, 0) | None => today end in
  {| y := int (GField FYear) (fst (fst tod)); mo := int (GField FMonth) (snd (fst tod)); d := int (GField FDay) (snd tod);
     h := int (GField FHour) 0; mi := int (GField FMinute) 0; s := int (GField FSecond) 0;
     us := match lookup GMicro gs with Some t => val_digits (pad6 t) | None => 0 end |}.
Lemma val_pad n v : val_digits (pad n v) = v.
Proof. unfold pad. rewrite val_digits_zeros. apply val_digits_of. Qed.
Lemma val_num b v : val_digits (num b v) = v.
Proof. destruct b; [apply val_pad|apply val_digits_of]. Qed.
Lemma read_kind today k x w : all_digits w = true -> (length w <= kind_frac k)%nat ->
  read_groups today (kind_groups k x ++ frac_groups w) = said today k x w /\ lookup GExtra (kind_groups k x ++ frac_groups w) = None.
Proof.
  intros A L. pose proof (micro_val w A) as M.
  destruct k as [p|t n|p c t n]; cbn [kind_groups kind_frac] in *.
  - destruct w; [|cbn in L; lia]. unfold date_groups. destruct (dp_order p); cbn -[val_digits pad num]; unfold read_groups; cbn -[val_digits pad num];
      rewrite !val_pad, !val_num; auto.
  - unfold clock_groups. destruct w as [|c w]; destruct (tp_secs t) eqn:T; cbn [frac_groups said]; rewrite T, <- M; cbn -[val_digits pad num pad6]; unfold read_groups; cbn -[val_digits pad num pad6];
      rewrite !val_pad; auto.
  - unfold date_groups, clock_groups. destruct w as [|c' w]; destruct (dp_order p); destruct (tp_secs t) eqn:T; cbn [frac_groups said]; rewrite T, <- M; cbn -[val_digits pad num pad6]; unfold read_groups; cbn -[val_digits pad num pad6];
      rewrite ?val_pad, ?val_num; auto.
Qed.
(** text written field by field in an accepted format is read back; whatever follows is ignored,
    unless it could be taken for (part of) the fraction *)
Theorem date_parse today k x w junk : kind_ok k -> all_digits w = true -> (length w <= kind_frac k)%nat -> dt_ok (said today k x w) = true ->
  (kind_frac k = O \/ ends_fraction junk) ->
  forall v, strip v = kind_text k x w ++ junk -> dt_parse today (kind_items k) v = Ok (said today k x w).
Proof.
  intros Hk A L D J v E. unfold dt_parse. rewrite E. destruct (said_bounds _ _ _ _ D) as [B1 B2].
  assert (F : fits (kind_items k) (kind_text k x w ++ junk) (kind_groups k x ++ frac_groups w)).
  { apply kind_fits; auto. destruct k; cbn [kind_frac] in *; [destruct w; [reflexivity|cbn in L; lia]| |]; apply fits_frac; auto. }
  rewrite (fits_match _ _ _ F). destruct (read_kind today k x w A L) as [R X]. rewrite X. fold (read_groups today (kind_groups k x ++ frac_groups w)).
  change (let int g dflt := match lookup g (kind_groups k x ++ frac_groups w) with Some t => val_digits t | None => dflt end in _) with
    (if dt_ok (read_groups today (kind_groups k x ++ frac_groups w)) then Ok (read_groups today (kind_groups k x ++ frac_groups w)) else Err ValueError).
  rewrite R, D. reflexivity.
Qed.
Theorem date_match k x w junk today : kind_ok k -> all_digits w = true -> (length w <= kind_frac k)%nat -> dt_ok (said today k x w) = true ->
  (kind_frac k = O \/ ends_fraction junk) -> rmatch (kind_items k) (kind_text k x w ++ junk) <> None.
Proof.
  intros Hk A L D J. destruct (said_bounds _ _ _ _ D) as [B1 B2].
  assert (F : fits (kind_items k) (kind_text k x w ++ junk) (kind_groups k x ++ frac_groups w)).
  { apply kind_fits; auto. destruct k; cbn [kind_frac] in *; [destruct w; [reflexivity|cbn in L; lia]| |]; apply fits_frac; auto. }
  rewrite (fits_match _ _ _ F). discriminate.
Qed.
(** a fraction with more digits than the format allows *)
Theorem date_extra today k x w w0 : kind_ok k -> all_digits w = true -> (1 <= kind_frac k < length w)%nat -> dt_ok (said today k x w0) = true ->
  forall v junk, next_not_digit junk = true -> strip v = kind_text k x w ++ junk -> dt_parse today (kind_items k) v = Err ValueError.
Proof.
  intros Hk A L D v junk J E. unfold dt_parse. rewrite E. destruct (said_bounds _ _ _ _ D) as [B1 B2].
  assert (F : fits (kind_items k) (kind_text k x w ++ junk) (kind_groups k x ++ [(GExtra, w)])).
  { apply kind_fits; auto. destruct k; cbn [kind_frac] in *; [lia| |]; apply fits_toolong; auto. }
  rewrite (fits_match _ _ _ F).
  replace (lookup GExtra (kind_groups k x ++ [(GExtra, w)])) with (Some w); [reflexivity|].
  destruct k as [p|t n|p c t n]; cbn [kind_groups]; unfold date_groups, clock_groups;
    [destruct (dp_order p)|destruct (tp_secs t)|destruct (dp_order p), (tp_secs t)]; reflexivity.
Qed.
(** the text itself has no surrounding whitespace *)
Lemma kind_text_ends k x w : kind_ok k -> all_digits w = true -> exists a b m m', kind_text k x w = a :: m /\ kind_text k x w = m' ++ [b] /\ is_digit a = true /\ is_digit b = true.
Proof.
  intros Hk A.
  assert (P : forall w, all_digits w = true -> w <> [] -> (exists a m, w = a :: m /\ is_digit a = true) /\ (exists b m, w = m ++ [b] /\ is_digit b = true)).
  { clear. intros w A Ne. unfold all_digits in A. rewrite forallb_forall in A. split.
    - destruct w as [|a m]; [congruence|]. exists a, m. split; [reflexivity|]. apply A. left. reflexivity.
    - destruct w as [|b m _] using rev_ind; [congruence|]. exists b, m. split; [reflexivity|]. apply A. apply in_or_app. right. left. reflexivity. }
  assert (Pp : forall n v, all_digits (pad n v) = true /\ pad n v <> []).
  { intros n v. unfold pad. split.
    - unfold all_digits. rewrite forallb_app. apply andb_true_intro. split; [|apply digits_of_all]. apply forallb_forall. intros c Hc. apply repeat_spec in Hc. subst. reflexivity.
    - intros E. apply app_eq_nil in E. apply (digits_of_nonempty v). tauto. }
  assert (Pn : forall b v, all_digits (num b v) = true /\ num b v <> []).
  { intros [] v; cbn [num]; [apply Pp|]. split; [apply digits_of_all|apply digits_of_nonempty]. }
  assert (D : forall p, (exists a m, date_text p x = a :: m /\ is_digit a = true) /\ (exists b m, date_text p x = m ++ [b] /\ is_digit b = true)).
  { intros p. assert (E : exists u v r, date_text p x = u ++ dp_sep p ++ r ++ dp_sep p ++ v /\ (all_digits u = true /\ u <> []) /\ (all_digits v = true /\ v <> [])).
    { unfold date_text. fold (num (dp_padded p) (mo x)). fold (num (dp_padded p) (d x)). destruct (dp_order p); cbn [in_order join]; eexists _, _, _; (split; [reflexivity|]); split; auto. }
    destruct E as (u & v & r & -> & [Au Nu] & [Av Nv]). destruct (P u Au Nu) as [(a & m & -> & Ha) _]. destruct (P v Av Nv) as [_ (b & m' & -> & Hb)].
    split; [eexists _, _; split; [reflexivity|exact Ha]|]. rewrite !app_assoc. eexists _, _; split; [reflexivity|exact Hb]. }
  assert (C : forall t, (exists a m, clock_text t x = a :: m /\ is_digit a = true) /\ (exists b m, clock_text t x = m ++ [b] /\ is_digit b = true)).
  { intros t. destruct (Pp 2%nat (h x)) as [A1 N1]. destruct (Pp 2%nat (mi x)) as [A2 N2]. destruct (Pp 2%nat (s x)) as [A3 N3].
    destruct (P _ A1 N1) as [(a & m & E1 & Ha) _]. destruct (P _ A2 N2) as [_ (b & m' & E2 & Hb)]. destruct (P _ A3 N3) as [_ (b' & m'' & E3 & Hb')].
    unfold clock_text. split.
    - rewrite E1. destruct (tp_secs t); cbn [app join]; (eexists _, _; split; [reflexivity|exact Ha]).
    - destruct (tp_secs t); cbn [app join]; [rewrite E3|rewrite E2]; rewrite ?app_assoc; (eexists _, _; split; [reflexivity|assumption]). }
  assert (T : forall t, exists b m, clock_text t x ++ frac_part w = m ++ [b] /\ is_digit b = true).
  { intros t. destruct w as [|c w]; [cbn [frac_part]; rewrite app_nil_r; apply C|].
    destruct (P (c :: w) A ltac:(discriminate)) as [_ (b & m & E & Hb)]. unfold frac_part. rewrite E, !app_assoc. eexists _, _; split; [reflexivity|exact Hb]. }
  destruct k as [p|t n|p c t n]; cbn [kind_text].
  - destruct (D p) as [(a & m & E & Ha) (b & m' & E' & Hb)]. exists a, b, m, m'. auto.
  - destruct (C t) as [(a & m & E & Ha) _]. destruct (T t) as (b & m' & E' & Hb). exists a, b. eexists _, _. repeat split; [|exact E'|exact Ha|exact Hb]. rewrite E. reflexivity.
  - destruct (D p) as [(a & m & E & Ha) _]. destruct (T t) as (b & m' & E' & Hb). exists a, b. eexists _, _. repeat split; [| |exact Ha|exact Hb].
    + rewrite E. reflexivity.
    + rewrite E', !app_assoc. reflexivity.
Qed.
Lemma digit_not_space c : is_digit c = true -> is_space c = false.
Proof.
  intros H. apply is_digit_iff in H. assert (K : In c (map N.of_nat (seq 48 10))) by (apply in_map_iff; exists (N.to_nat c); split; [lia|apply in_seq; lia]).
  revert c K H. apply (Forall_forall (fun c => 48 <= c <= 57 -> is_space c = false)). repeat constructor.
Qed.
Lemma kind_text_strip k x w : kind_ok k -> all_digits w = true -> strip (kind_text k x w) = kind_text k x w.
Proof.
  intros Hk A. destruct (kind_text_ends k x w Hk A) as (a & b & m & m' & E1 & E2 & Ha & Hb). apply strip_fixed. right.
  exists a, b. repeat split; eauto using digit_not_space.
Qed.
(** date, dateTime: the regular expression, then isoparse, then the format *)
Theorem date_to_python today isoparse k x w : kind_ok k -> all_digits w = true -> (length w <= kind_frac k)%nat -> dt_ok (said today k x w) = true ->
  (isoparse (kind_text k x w) = None \/ isoparse (kind_text k x w) = Some (said today k x w)) ->
  dt_to_python isoparse today (kind_items k) (kind_text k x w) = Ok (said today k x w).
Proof.
  intros Hk A L D I. assert (J : kind_frac k = O \/ ends_fraction []) by (right; split; [reflexivity|exact Logic.I]).
  unfold dt_to_python. pose proof (date_match k x w [] today Hk A L D J) as M. rewrite app_nil_r in M.
  destruct (rmatch _ _); [|congruence]. destruct I as [-> | ->]; [|reflexivity].
  apply (date_parse today k x w []); auto. rewrite app_nil_r. apply kind_text_strip; auto.
Qed.
