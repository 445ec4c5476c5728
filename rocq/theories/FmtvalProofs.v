(** Proofs about JSON literals of dates and times. *)
From Verif Require Import PyStr Dec DecProofs DecProofs2 NamesProofs PatternProofs BasicProofs Numeric Dates DateSpec DateProofs DateProofs2 Fmtval FmtvalSpec.
From Coq Require Import ZifyBool ZifyN ZifyNat.

Lemma dt_ok_max x : dt_ok x = true -> y x < 10000 /\ mo x < 100 /\ d x < 100 /\ h x < 100 /\ mi x < 100 /\ s x < 100 /\ us x < 1000000.
Proof.
  intros D. destruct (dt_ok_bounds x D) as (A & B & C & E & F & G). repeat split; auto.
  unfold dt_ok in D. apply andb_prop in D as [_ D]. lia.
Qed.
Lemma fmt_num_pad n v : fmt_num n v = pad n v.
Proof. reflexivity. Qed.
Lemma pad2 v : v < 100 -> pad 2 v = [48 + v / 10; 48 + v mod 10].
Proof.
  intros H. destruct (pad_spec 2 v) as (A & L & V); [lia|exact H|].
  assert (v / 10 < 10) by (apply N.div_lt_upper_bound; lia).
  assert (v mod 10 < 10) by (apply N.mod_lt; lia).
  assert (D : all_digits [48 + v / 10; 48 + v mod 10] = true).
  { unfold all_digits; cbn [forallb]. apply andb_true_intro; split; [apply is_digit_iff; lia|]. rewrite andb_true_r. apply is_digit_iff; lia. }
  apply all_digits_inj; auto.
  rewrite V. rewrite val_digits_cons, val_digits_one. cbn [length].
  replace (48 + v / 10 - 48) with (v / 10) by lia. replace (48 + v mod 10 - 48) with (v mod 10) by lia.
  change (10 ^ N.of_nat 1) with 10. rewrite N.mul_comm. apply N.div_mod. lia.
Qed.
Lemma pad_digits n v : all_digits (pad n v) = true.
Proof.
  unfold pad, all_digits. rewrite forallb_app. apply andb_true_intro. split; [|apply digits_of_all].
  apply forallb_forall. intros c Hc. apply repeat_spec in Hc. subst. reflexivity.
Qed.
(** ** characters *)
Definition clean (c : N) : Prop := is_digit c = true \/ c = 45 \/ c = 58.
Lemma digits_clean w : all_digits w = true -> Forall clean w.
Proof. intros A. apply Forall_forall. intros c C. unfold all_digits in A. rewrite forallb_forall in A. left. auto. Qed.
Lemma date_text_eq x : date_text iso_date x = pad 4 (y x) ++ lit "-" ++ pad 2 (mo x) ++ lit "-" ++ pad 2 (d x).
Proof. reflexivity. Qed.
Lemma clock_text_eq x : clock_text iso_clock x = pad 2 (h x) ++ lit ":" ++ pad 2 (mi x) ++ lit ":" ++ pad 2 (s x).
Proof. reflexivity. Qed.
Lemma date_clean x : Forall clean (date_text iso_date x).
Proof.
  rewrite date_text_eq. change (lit "-") with [45]. rewrite !Forall_app. repeat split; first [apply digits_clean, pad_digits|apply Forall_cons; [unfold clean; auto|apply Forall_nil]].
Qed.
Lemma clock_clean x : Forall clean (clock_text iso_clock x).
Proof.
  rewrite clock_text_eq. change (lit ":") with [58]. rewrite !Forall_app. repeat split; first [apply digits_clean, pad_digits|apply Forall_cons; [unfold clean; auto|apply Forall_nil]].
Qed.
Lemma clock_clock x : forallb clock_char (clock_text iso_clock x) = true.
Proof.
  rewrite clock_text_eq.
  assert (P : forall n v, forallb clock_char (pad n v) = true).
  { intros n v. apply forallb_forall. intros c C. pose proof (pad_digits n v) as A. unfold all_digits in A. rewrite forallb_forall in A.
    unfold clock_char. rewrite (A c C). reflexivity. }
  rewrite !forallb_app, !P. reflexivity.
Qed.
Lemma clean_not c w : Forall clean w -> is_digit c = false -> c <> 45 -> c <> 58 -> ~ In c w.
Proof. intros F A B C I. rewrite Forall_forall in F. destruct (F c I) as [K|[K|K]]; congruence. Qed.
Definition offset_text (o : option Z) : pystr := iso_offset o.
Lemma iso_offset_eq o : iso_offset o = match o with None => [] | Some z => (if Z.ltb z 0 then 45 else 43) :: pad 2 (Z.to_N (Z.abs z) / 60) ++ 58 :: pad 2 (Z.to_N (Z.abs z) mod 60) end.
Proof. destruct o as [z|]; [|reflexivity]. unfold iso_offset. destruct (Z.ltb z 0); reflexivity. Qed.
Lemma offset_not c o : is_digit c = false -> c <> 45 -> c <> 58 -> c <> 43 -> ~ In c (iso_offset o).
Proof.
  intros A B C D I. rewrite iso_offset_eq in I. destruct o as [z|]; [|exact I].
  destruct I as [I|I]; [destruct (Z.ltb z 0); congruence|].
  apply in_app_or in I. destruct I as [I|[I|I]]; [| congruence |].
  - revert I. apply clean_not; auto. apply digits_clean, pad_digits.
  - revert I. apply clean_not; auto. apply digits_clean, pad_digits.
Qed.
(** ** operations *)
Lemma sub_skip a b : forallb clock_char a = true -> match b with c :: _ => clock_char c = false | [] => True end ->
  sub_clock true (a ++ b) = sub_clock false b.
Proof.
  induction a as [|c a IH]; intros A B.
  - destruct b as [|c b]; [reflexivity|]. cbn [app sub_clock]. rewrite B. reflexivity.
  - cbn [forallb] in A. apply andb_prop in A as [A1 A2]. cbn [app sub_clock]. rewrite A1. apply IH; auto.
Qed.
Lemma sub_none a b : ~ In 84 a -> sub_clock false (a ++ b) = a ++ sub_clock false b.
Proof.
  induction a as [|c a IH]; intros A; [reflexivity|]. cbn [app sub_clock andb].
  destruct (c =? 84) eqn:E; [exfalso; apply A; left; lia|]. cbn [andb]. f_equal. apply IH. intros I; apply A; right; auto.
Qed.
Lemma partition_none c a : ~ In c a -> partition1 c a = (a, false, []).
Proof.
  induction a as [|x a IH]; intros A; [reflexivity|]. cbn [partition1]. destruct (x =? c) eqn:E; [exfalso; apply A; left; lia|].
  rewrite IH; [reflexivity|]. intros I; apply A; right; auto.
Qed.
Lemma partition_at c a b : ~ In c a -> partition1 c (a ++ c :: b) = (a, true, b).
Proof.
  induction a as [|x a IH]; intros A; cbn [app partition1].
  - rewrite N.eqb_refl. reflexivity.
  - destruct (x =? c) eqn:E; [exfalso; apply A; left; lia|]. rewrite IH; [reflexivity|]. intros I; apply A; right; auto.
Qed.
Lemma replace_prefix c old new a b : ~ In c a -> replace (c :: old) new (a ++ b) = a ++ replace (c :: old) new b.
Proof.
  unfold replace. induction a as [|x a IH]; intros A; [reflexivity|]. cbn [app replace_aux startswith].
  destruct (c =? x) eqn:E; [exfalso; apply A; left; lia|]. cbn [andb]. f_equal. apply IH. intros I; apply A; right; auto.
Qed.
Lemma replace_cons old new c t : startswith old (c :: t) = false -> replace old new (c :: t) = c :: replace old new t.
Proof. intros H. unfold replace. cbn [replace_aux]. rewrite H. reflexivity. Qed.
Lemma zeros_at p q r t : startswith (lit "00:00") [p; q; 58; r; t] = true -> p = 48 /\ q = 48 /\ r = 48 /\ t = 48.
Proof. intros X. apply startswith_spec in X as (l & X). cbn in X. injection X as -> -> -> -> _. auto. Qed.
Lemma replace_offset o : zone_ok o -> replace (lit "+00:00") (lit "Z") (iso_offset o) = zone_text o.
Proof.
  intros Z. unfold zone_text. destruct o as [z|]; [|reflexivity]. cbn [zone_ok] in Z.
  destruct (Z.eqb z 0) eqn:E0; [apply Z.eqb_eq in E0; subst; reflexivity|].
  apply Z.eqb_neq in E0.
  set (a := Z.to_N (Z.abs z)). assert (A : 0 < a < 1440) by lia.
  assert (H1 : a / 60 < 24) by (apply N.div_lt_upper_bound; lia). assert (H2 : a mod 60 < 60) by (apply N.mod_lt; lia).
  assert (NP : forall v, v < 100 -> ~ In 43 (pad 2 v)) by (intros v _; apply clean_not; [apply digits_clean, pad_digits|reflexivity|lia|lia]).
  rewrite iso_offset_eq. fold a. destruct (Z.ltb z 0) eqn:S.
  - change (lit "+00:00") with (43 :: lit "00:00").
    match goal with |- replace _ _ ?t = _ => rewrite <- (app_nil_r t) end. rewrite replace_prefix.
    + cbn [replace replace_aux]. rewrite app_nil_r. reflexivity.
    + intros [I|I]; [discriminate|]. apply in_app_or in I as [I|[I|I]]; [revert I; apply NP; lia|discriminate|revert I; apply NP; lia].
  - change (lit "+00:00") with (43 :: lit "00:00").
    rewrite !pad2 by lia. cbn [app].
    assert (X : startswith (lit "00:00") [48 + a / 60 / 10; 48 + (a / 60) mod 10; 58; 48 + a mod 60 / 10; 48 + (a mod 60) mod 10] = false).
    { apply not_true_is_false. intros X. apply zeros_at in X as (X1 & X2 & X3 & X4).
      assert (a / 60 / 10 = 0) by lia. assert ((a / 60) mod 10 = 0) by lia. assert (a mod 60 / 10 = 0) by lia. assert ((a mod 60) mod 10 = 0) by lia.
      pose proof (N.div_mod (a / 60) 10 ltac:(lia)). pose proof (N.div_mod (a mod 60) 10 ltac:(lia)). pose proof (N.div_mod a 60 ltac:(lia)). lia. }
    rewrite replace_cons by (cbn [startswith]; rewrite X; apply andb_false_r).
    set (t := [48 + a / 60 / 10; _; _; _; _]) in *.
    pose proof (replace_prefix 43 (lit "00:00") (lit "Z") t []) as R. rewrite !app_nil_r in R. rewrite R; [reflexivity|].
    unfold t. cbn [In]. lia.
Qed.
Lemma rstrip_zeros u : u < 1000000 -> u <> 0 -> fraction u (rstrip_by (N.eqb 48) (pad 6 u)) /\ rstrip_by (N.eqb 48) (pad 6 u) <> [].
Proof.
  intros U N0. destruct (pad_spec 6 u) as (A & L & V); [lia|exact U|].
  unfold rstrip_by. destruct (lstrip_by_spec (N.eqb 48) (rev (pad 6 u))) as (z & E & Zs & St).
  set (r := lstrip_by (N.eqb 48) (rev (pad 6 u))) in *.
  assert (P : pad 6 u = rev r ++ rev z) by (rewrite <- rev_app_distr, <- E, rev_involutive; reflexivity).
  assert (ZR : rev z = repeat 48 (length z)).
  { clear - Zs. rewrite <- (rev_length z). assert (F : forall c, In c (rev z) -> c = 48) by (intros c C; apply in_rev in C; rewrite forallb_forall in Zs; specialize (Zs c C); lia).
    induction (rev z) as [|c l IH]; [reflexivity|]. cbn. rewrite (F c) by (left; auto). f_equal. apply IH. intros; apply F; right; auto. }
  assert (Len : (length r + length z = 6)%nat) by (rewrite <- L, P, app_length, !rev_length; lia).
  assert (Val : val_digits (rev r) * 10 ^ N.of_nat (length z) = u).
  { rewrite <- V, P, val_digits_app, ZR, repeat_length. replace (val_digits (repeat 48 (length z))) with 0; [lia|].
    symmetry. rewrite <- (app_nil_r (repeat 48 _)), val_digits_zeros. reflexivity. }
  split.
  - unfold fraction. split; [|split; [|split]].
    + rewrite P in A. unfold all_digits in A. rewrite forallb_app in A. apply andb_prop in A. tauto.
    + rewrite rev_length. lia.
    + rewrite rev_length. replace (6 - length r)%nat with (length z) by lia. exact Val.
    + destruct r as [|c r]; [left; reflexivity|]. right. cbn [rev]. exists (rev r), c. split; [reflexivity|]. lia.
  - intros K. rewrite K in Val. cbn in Val. lia.
Qed.
Lemma fraction_zero w : fraction 0 w -> w = [].
Proof.
  intros (A & L & V & [->|(w' & c & -> & C)]); [reflexivity|]. exfalso.
  assert (D : is_digit c = true) by (unfold all_digits in A; rewrite forallb_forall in A; apply A, in_or_app; right; left; auto).
  apply is_digit_iff in D. apply N.eq_mul_0 in V as [V|V]; [|apply N.pow_nonzero in V; [exact V|lia]].
  rewrite val_digits_app, val_digits_one in V. lia.
Qed.
Lemma fraction_nil : fraction 0 [].
Proof. unfold fraction. split; [reflexivity|]. split; [cbn; lia|]. split; [reflexivity|auto]. Qed.

Lemma isoformat_eq x o : isoformat (x, o) = date_text iso_date x ++ 84 :: clock_text iso_clock x ++ (if us x =? 0 then [] else 46 :: pad 6 (us x)) ++ iso_offset o.
Proof.
  rewrite date_text_eq, clock_text_eq. unfold isoformat. cbn [fst snd]. rewrite !fmt_num_pad. rewrite <- !app_assoc. cbn [app lit].
  destruct (us x =? 0); reflexivity.
Qed.
Lemma isoformat_time x o : last (split (lit "T") (isoformat (x, o))) [] = clock_text iso_clock x ++ (if us x =? 0 then [] else 46 :: pad 6 (us x)) ++ iso_offset o.
Proof.
  rewrite isoformat_eq. set (r := clock_text iso_clock x ++ _).
  assert (NR : ~ In 84 r).
  { unfold r. intros I. apply in_app_or in I as [I|I]; [revert I; apply clean_not; [apply clock_clean|reflexivity|lia|lia]|].
    apply in_app_or in I as [I|I]; [|revert I; apply offset_not; [reflexivity|lia|lia|lia]].
    destruct (us x =? 0); [exact I|]. destruct I as [I|I]; [discriminate|]. revert I; apply clean_not; [apply digits_clean, pad_digits|reflexivity|lia|lia]. }
  change (lit "T") with [84].
  assert (S : split [84] (join [84] [date_text iso_date x; r]) = [date_text iso_date x; r]).
  { apply split_join1; [discriminate|]. intros p [<-|[<-|[]]]; [apply clean_not; [apply date_clean|reflexivity|lia|lia]|exact NR]. }
  cbn [join app] in S. rewrite S. reflexivity.
Qed.
Lemma isoformat_date x o : sub_clock false (isoformat (x, o)) = date_text iso_date x ++ iso_offset o.
Proof.
  rewrite isoformat_eq, sub_none by (apply clean_not; [apply date_clean|reflexivity|lia|lia]). f_equal.
  set (c := clock_text iso_clock x ++ _). set (f := if us x =? 0 then [] else 46 :: pad 6 (us x)) in *.
  assert (E : c = (clock_text iso_clock x ++ f) ++ iso_offset o) by (unfold c; apply app_assoc).
  assert (C : forallb clock_char (clock_text iso_clock x ++ f) = true).
  { rewrite forallb_app, clock_clock. unfold f. destruct (us x =? 0); [reflexivity|]. cbn [forallb andb]. apply forallb_forall. intros k K.
    pose proof (pad_digits 6 (us x)) as A. unfold all_digits in A. rewrite forallb_forall in A. unfold clock_char. rewrite (A k K). reflexivity. }
  assert (Hd : exists k r, clock_text iso_clock x ++ f = k :: r).
  { destruct (clock_text iso_clock x ++ f) eqn:Q; [|eauto]. apply app_eq_nil in Q as [Q _]. rewrite clock_text_eq in Q. apply app_eq_nil in Q as [Q _].
    unfold pad in Q. apply app_eq_nil in Q as [_ Q]. destruct (digits_of_nonempty (h x) Q). }
  destruct Hd as (k & r & Hd). cbn [sub_clock andb]. rewrite N.eqb_refl. cbn [andb].
  rewrite E, Hd. cbn [app].
  assert (K : clock_char k = true) by (rewrite Hd in C; cbn [forallb] in C; apply andb_prop in C; tauto). rewrite K.
  change (k :: r ++ iso_offset o) with ((k :: r) ++ iso_offset o). rewrite <- Hd, sub_skip; auto.
  - pose proof (sub_none (iso_offset o) [] (offset_not 84 o eq_refl ltac:(lia) ltac:(lia) ltac:(lia))) as X. rewrite !app_nil_r in X. exact X.
  - rewrite iso_offset_eq. destruct o as [z|]; [|exact I]. destruct (Z.ltb z 0); reflexivity.
Qed.

(** the last step, for text [a] without point before the fraction *)
Definition finish (r : pystr) : pystr :=
  match snd (partition1 46 r) with
  | [] => replace (lit "+00:00") (lit "Z") (fst (fst (partition1 46 r)))
  | ms => fst (fst (partition1 46 r)) ++ lit "." ++ rstrip_by (N.eqb 48) ms
  end.
Lemma finish_plain a o : ~ In 46 a -> ~ In 43 a -> zone_ok o -> finish (a ++ iso_offset o) = a ++ zone_text o.
Proof.
  intros P Q Zo. unfold finish. rewrite partition_none.
  - cbn [fst snd]. change (lit "+00:00") with (43 :: lit "00:00"). rewrite replace_prefix by auto. f_equal. apply replace_offset; auto.
  - intros I. apply in_app_or in I as [I|I]; [auto|revert I; apply offset_not; [reflexivity|lia|lia|lia]].
Qed.
Lemma finish_frac a u : ~ In 46 a -> finish (a ++ 46 :: pad 6 u) = a ++ frac_part (rstrip_by (N.eqb 48) (pad 6 u)) \/ rstrip_by (N.eqb 48) (pad 6 u) = [].
Proof.
  intros P. unfold finish. rewrite partition_at by auto. cbn [fst snd].
  destruct (pad 6 u) as [|c p] eqn:E.
  - right. reflexivity.
  - destruct (rstrip_by (N.eqb 48) (c :: p)); [right; reflexivity|left; reflexivity].
Qed.
Lemma format_datetime_eq base v : format_datetime (Some base) v = finish (if str_eqb base (lit "date") then sub_clock false (isoformat v) else if str_eqb base (lit "time") then last (split (lit "T") (isoformat v)) [] else isoformat v).
Proof.
  unfold format_datetime, finish. destruct (str_eqb base (lit "time")) eqn:T.
  - apply str_eqb_eq in T; subst. reflexivity.
  - reflexivity.
Qed.
Theorem format_literal base v : dt_ok (fst v) = true -> zone_ok (snd v) -> snd v = None \/ us (fst v) = 0 \/ base = lit "date" ->
  literal base v (format_datetime (Some base) v) /\ (base <> lit "date" -> base <> lit "time" -> format_datetime None v = format_datetime (Some base) v).
Proof.
  destruct v as [x o]. cbn [fst snd]. intros D Z C. split.
  2:{ intros N1 N2. apply str_eqb_neq in N1, N2. unfold format_datetime. rewrite N1, N2. reflexivity. }
  destruct (dt_ok_max x D) as (By & Bm & Bd & Bh & Bi & Bs & Bu).
  assert (D46 : ~ In 46 (date_text iso_date x) /\ ~ In 43 (date_text iso_date x)) by (split; (apply clean_not; [apply date_clean|reflexivity|lia|lia])).
  assert (C46 : ~ In 46 (clock_text iso_clock x) /\ ~ In 43 (clock_text iso_clock x)) by (split; (apply clean_not; [apply clock_clean|reflexivity|lia|lia])).
  assert (DC : ~ In 46 (date_text iso_date x ++ 84 :: clock_text iso_clock x) /\ ~ In 43 (date_text iso_date x ++ 84 :: clock_text iso_clock x)).
  { split; intros I; apply in_app_or in I as [I|[I|I]]; try discriminate; tauto. }
  assert (W : exists w, fraction (us x) w).
  { destruct (N.eq_dec (us x) 0) as [->|N0]; [exists []; apply fraction_nil|eexists; apply (rstrip_zeros (us x)); auto]. }
  rewrite format_datetime_eq. unfold literal. cbn [fst snd].
  destruct (str_eqb base (lit "date")) eqn:B.
  { destruct W as (w & W). exists w. split; [exact W|]. rewrite isoformat_date. apply finish_plain; tauto. }
  apply str_eqb_neq in B.
  assert (G : forall a, ~ In 46 a -> ~ In 43 a -> exists w, fraction (us x) w /\ finish (a ++ (if us x =? 0 then [] else 46 :: pad 6 (us x)) ++ iso_offset o) = (a ++ frac_part w) ++ zone_text o).
  { intros a A1 A2. destruct (us x =? 0) eqn:U.
    - exists []. assert (U' : us x = 0) by lia. rewrite U'. split; [apply fraction_nil|]. cbn [app frac_part]. rewrite app_nil_r. apply finish_plain; auto.
    - assert (o = None) as -> by (destruct C as [C|[C|C]]; [exact C|lia|congruence]). cbn [iso_offset zone_text].
      destruct (rstrip_zeros (us x)) as (F & NE); [auto|lia|]. eexists; split; [exact F|]. rewrite !app_nil_r.
      destruct (finish_frac a (us x) A1) as [E|E]; [exact E|congruence]. }
  destruct (str_eqb base (lit "time")) eqn:T.
  - rewrite isoformat_time. destruct (G (clock_text iso_clock x)) as (w & W1 & W2); [tauto|tauto|]. exists w. split; auto.
  - rewrite isoformat_eq. destruct (G (date_text iso_date x ++ 84 :: clock_text iso_clock x)) as (w & W1 & W2); [tauto|tauto|]. exists w. split; auto.
    rewrite <- !app_assoc in W2. cbn [app] in W2. rewrite <- !app_assoc. cbn [app lit]. rewrite <- ?app_assoc in *. exact W2.
Qed.
