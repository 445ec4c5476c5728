(** Decimals: text level. *)
From Verif Require Import PyStr Dec Numeric NumericSpec DecProofs.
From Coq Require Import ZifyBool ZifyN ZifyNat.

Definition numchar (c : N) : bool := is_digit c || (c =? 43) || (c =? 45) || (c =? 46).
Lemma numchar_props c : numchar c = true ->
  is_space c = false /\ c <> 95 /\ c < 128 /\ c <> 101 /\ c <> 69 /\ c <> 44 /\ c <> 37 /\ c <> 8240 /\ 43 <= c <= 57.
Proof. unfold numchar, is_digit, is_space. lia. Qed.
Lemma digit_numchar c : is_digit c = true -> numchar c = true.
Proof. unfold numchar. intros ->. reflexivity. Qed.
Lemma digits_numchars s : all_digits s = true -> forallb numchar s = true.
Proof.
  unfold all_digits. rewrite !forallb_forall. intros H c Hc. apply digit_numchar, H, Hc.
Qed.

Lemma lstrip_id p s : (forall c, In c s -> p c = false) -> lstrip_by p s = s.
Proof. destruct s as [|c s]; cbn; [reflexivity|]. intros H. rewrite (H c (or_introl eq_refl)). reflexivity. Qed.
Lemma strip_id p s : (forall c, In c s -> p c = false) -> strip_by p s = s.
Proof.
  intros H. unfold strip_by, rstrip_by. rewrite (lstrip_id p s) by exact H.
  rewrite (lstrip_id p (rev s)) by (intros c Hc; apply H, in_rev, Hc). apply rev_involutive.
Qed.

Section U.
Variable udigit : N -> option N.

Lemma to_ascii_numchars s : forallb numchar s = true -> to_ascii udigit s = Some s.
Proof.
  intros H. unfold to_ascii.
  assert (Hs : strip s = s).
  { apply strip_id. intros c Hc. rewrite forallb_forall in H. apply numchar_props, H, Hc. }
  rewrite Hs. clear Hs. induction s as [|c s IH]; [reflexivity|].
  cbn [forallb] in H. apply andb_true_iff in H. destruct H as [Hc H]. cbn [fold_right]. rewrite IH by exact H.
  apply numchar_props in Hc. destruct (N.eqb_spec c 95); [lia|]. destruct (N.ltb_spec c 128); [reflexivity|lia].
Qed.

Lemma span_digits_app ds rest :
  all_digits ds = true -> (match rest with c :: _ => is_digit c = false | [] => True end) ->
  span_digits (ds ++ rest) = (ds, rest).
Proof.
  intros H Hr. induction ds as [|c ds IH]; cbn [app].
  - destruct rest as [|c r]; [reflexivity|]. cbn [span_digits]. rewrite Hr. reflexivity.
  - unfold all_digits in *. cbn [forallb] in H. apply andb_true_iff in H. destruct H as [Hc H].
    cbn [span_digits]. rewrite Hc, (IH H). reflexivity.
Qed.

Lemma parse_unsigned_num neg ip point fp : numeral_ok ip point fp ->
  parse_unsigned neg (ip ++ (if point then lit "." ++ fp else [])) =
  Some (Fin neg (val_digits (ip ++ fp)) (- Z.of_nat (length fp))).
Proof.
  intros (Hd & Hne & Hp). apply Forall_app in Hd. destruct Hd as [Hi Hf].
  assert (Ai : all_digits ip = true) by (apply forallb_forall; intros c Hc; eapply Forall_forall in Hi; [|exact Hc]; unfold is_digit; lia).
  assert (Af : all_digits fp = true) by (apply forallb_forall; intros c Hc; eapply Forall_forall in Hf; [|exact Hc]; unfold is_digit; lia).
  set (s := ip ++ (if point then lit "." ++ fp else [])).
  assert (Hfirst : exists c r, s = c :: r /\ (is_digit c = true \/ c = 46)).
  { unfold s. destruct ip as [|c r].
    - destruct point; [eexists; eexists; split; [reflexivity|right; reflexivity]|].
      rewrite (Hp eq_refl) in Hne. cbn in Hne. congruence.
    - eexists; eexists; split; [reflexivity|left]. unfold all_digits in Ai. cbn [forallb] in Ai.
      apply andb_true_iff in Ai. apply Ai. }
  destruct Hfirst as (c & r & Es & Hc).
  assert (Hlow : lower1 c = c) by (unfold lower1, is_upper; unfold is_digit in Hc; destruct ((65 <=? c) && (c <=? 90)) eqn:E; lia).
  unfold parse_unsigned.
  assert (N1 : forall x t, (48 <= x <= 57 -> False) -> x <> 46 -> str_eqb (ascii_lower s) (x :: t) = false).
  { intros x t H1 H2. rewrite Es. unfold ascii_lower. cbn [map str_eqb]. rewrite Hlow.
    destruct (N.eqb_spec c x) as [->|]; [|reflexivity]. unfold is_digit in Hc. lia. }
  assert (N2 : forall x t, (48 <= x <= 57 -> False) -> x <> 46 -> startswith (x :: t) (ascii_lower s) = false).
  { intros x t H1 H2. rewrite Es. unfold ascii_lower. cbn [map startswith]. rewrite Hlow.
    destruct (N.eqb_spec x c) as [->|]; [|reflexivity]. unfold is_digit in Hc. lia. }
  change (lit "inf") with (105 :: lit "nf"). change (lit "infinity") with (105 :: lit "nfinity").
  change (lit "nan") with (110 :: lit "an"). change (lit "snan") with (115 :: lit "nan").
  rewrite !N1, !N2 by lia. cbn [orb andb].
  destruct point.
  - unfold s. rewrite span_digits_app by (try exact Ai; reflexivity). cbn [fst snd app].
    change (lit "." ++ fp) with (46 :: fp). cbn [fst snd]. change (46 =? 46) with true. cbv iota.
    assert (Esp : span_digits fp = (fp, [])).
    { rewrite <- (app_nil_r fp) at 1. apply span_digits_app; [exact Af|exact I]. }
    rewrite Esp. cbn [fst snd]. destruct (ip ++ fp) eqn:E; [congruence|]. reflexivity.
  - unfold s. rewrite (Hp eq_refl) in *. rewrite span_digits_app by (try exact Ai; exact I). cbn [fst snd].
    rewrite app_nil_r in *. destruct ip; [congruence|]. reflexivity.
Qed.

Lemma numeral_chars neg plus ip point fp : numeral_ok ip point fp ->
  forallb numchar (numeral neg plus ip point fp) = true.
Proof using Type. clear udigit.
  intros (Hd & _ & _). apply Forall_app in Hd. destruct Hd as [Hi Hf]. unfold numeral.
  assert (H : forall s, Forall (fun c => 48 <= c <= 57) s -> forallb numchar s = true).
  { intros s Hs. apply forallb_forall. intros c Hc. eapply Forall_forall in Hs; [|exact Hc].
    apply digit_numchar. unfold is_digit. lia. }
  rewrite !forallb_app. rewrite (H ip Hi). destruct point.
  - rewrite forallb_app, (H fp Hf). destruct neg, plus; reflexivity.
  - destruct neg, plus; reflexivity.
Qed.

Lemma dec_of_numeral neg plus ip point fp : numeral_ok ip point fp ->
  dec_of_str udigit (numeral neg plus ip point fp) =
  Some (Fin neg (val_digits (ip ++ fp)) (- Z.of_nat (length fp))).
Proof.
  intros Hok. unfold dec_of_str. rewrite to_ascii_numchars by (apply numeral_chars, Hok).
  unfold numeral. destruct neg; [cbn [lit app]; apply parse_unsigned_num, Hok|].
  destruct plus; [cbn [lit app]; apply parse_unsigned_num, Hok|].
  cbn [app]. pose proof (parse_unsigned_num false ip point fp Hok) as HP.
  destruct Hok as (Hd & Hne & Hp). apply Forall_app in Hd. destruct Hd as [Hi Hf].
  destruct (ip ++ (if point then lit "." ++ fp else [])) as [|c t] eqn:E.
  - exfalso. destruct ip; [|discriminate]. destruct point; [discriminate|]. rewrite Hp in Hne by reflexivity. congruence.
  - assert (Hc : 48 <= c <= 57 \/ c = 46).
    { destruct ip as [|c' ip']; cbn in E.
      - destruct point; [right; injection E as <- _; reflexivity|discriminate].
      - left. injection E as <- _. inversion Hi; assumption. }
    destruct (N.eqb_spec c 43); [lia|]. destruct (N.eqb_spec c 45); [lia|]. exact HP.
Qed.

(** rounding is the identity on 28 digits *)
Lemma fits_ndigits c : fits c -> (ndigits c <= prec)%nat.
Proof.
  intros H. unfold fits in H. destruct (N.eq_dec c 0) as [->|Hn]; [cbn; unfold prec; lia|].
  pose proof (ndigits_lower c Hn) as L.
  assert (N.of_nat (ndigits c - 1) < 28) by (apply (N.pow_lt_mono_r_iff 10); lia).
  unfold prec. lia.
Qed.
Lemma round_fits c e : fits c -> round_prec c e = (c, e).
Proof.
  intros H. apply fits_ndigits in H. unfold round_prec. destruct (Nat.leb_spec (ndigits c) prec); [reflexivity|lia].
Qed.

Lemma contains_absent c sub s : ~ In c s -> contains (c :: sub) s = false.
Proof.
  induction s as [|x s IH]; cbn [contains startswith]; intros H; [reflexivity|].
  destruct (N.eqb_spec c x) as [->|]; [exfalso; apply H; left; reflexivity|].
  apply IH. intros Hin; apply H; right; exact Hin.
Qed.
Lemma numchars_absent s c : forallb numchar s = true -> numchar c = false -> ~ In c s.
Proof. rewrite forallb_forall. intros H Hc Hin. specialize (H c Hin). congruence. Qed.
Lemma char_mem_absent c s : ~ In c s -> char_mem c s = false.
Proof. apply char_mem_false. Qed.

(** decimal.to_python on a text of digits, signs and points (after substitutions) *)
Definition raw_read (t : pystr) : res dec :=
  match dec_of_str udigit t with
  | None => Err ValueError
  | Some d => match dec_scale d 0 with Ok r => Ok r | Err _ => Err ValueError end
  end.
Lemma read_nofmt t : forallb numchar t = true -> decimal_to_python udigit nofmt t = raw_read t.
Proof.
  intros H. unfold decimal_to_python, nofmt. cbn [nf_group nf_decimal nf_pattern or_str truthy_str pat_has].
  unfold has_e. rewrite !char_mem_absent by (eapply numchars_absent; [exact H|reflexivity]). cbn [orb].
  change (lit "," ++ lit ",") with (44 :: lit ",").
  rewrite contains_absent by (eapply numchars_absent; [exact H|reflexivity]).
  cbn [bind negb].
  assert (Hs : forall x y s, numchar y = false -> str_eqb t (x ++ y :: s) = false).
  { intros x y s Hy. apply str_eqb_neq. intros ->. rewrite forallb_app in H. cbn [forallb] in H. rewrite Hy in H.
    rewrite andb_false_r in H. discriminate. }
  change (lit "INF") with ([] ++ 73 :: lit "NF"). change (lit "-INF") with (lit "-" ++ 73 :: lit "NF").
  change (lit "NaN") with ([] ++ 78 :: lit "aN"). rewrite !Hs by reflexivity.
  reflexivity.
Qed.

Theorem read_numeral neg plus ip point fp :
  numeral_ok ip point fp -> fits (val_digits (ip ++ fp)) ->
  decimal_to_python udigit nofmt (numeral neg plus ip point fp) =
  Ok (Fin neg (val_digits (ip ++ fp)) (- Z.of_nat (length fp))).
Proof.
  intros Hok Hf. rewrite read_nofmt by (apply numeral_chars, Hok). unfold raw_read.
  rewrite dec_of_numeral by exact Hok. cbn [dec_scale]. rewrite Z.sub_0_r, round_fits by exact Hf. reflexivity.
Qed.

(** percent and permille *)
Theorem read_percent neg plus ip point fp c k :
  numeral_ok ip point fp -> fits (val_digits (ip ++ fp)) ->
  (c = 37 /\ k = 2%Z) \/ (c = 8240 /\ k = 3%Z) ->
  decimal_to_python udigit nofmt (numeral neg plus ip point fp ++ [c]) =
  Ok (Fin neg (val_digits (ip ++ fp)) (- Z.of_nat (length fp) - k)).
Proof.
  intros Hok Hf Hc. pose proof (numeral_chars neg plus ip point fp Hok) as H.
  set (t := numeral neg plus ip point fp) in *.
  assert (Hn : forall x, numchar x = false -> x <> c -> ~ In x (t ++ [c])).
  { intros x Hx Hxc Hin. apply in_app_or in Hin. destruct Hin as [Hin|[E|[]]]; [|congruence].
    revert Hin. eapply numchars_absent; eassumption. }
  assert (Ht : forall x, numchar x = false -> ~ In x t) by (intros x Hx; eapply numchars_absent; eassumption).
  assert (Hrem : forall x, numchar x = false -> replace1 x [] (t ++ [x]) = t).
  { intros x Hx. unfold replace1. rewrite flat_map_app. cbn [flat_map]. rewrite N.eqb_refl, !app_nil_r.
    specialize (Ht x Hx). clear -Ht. induction t as [|y t IH]; [reflexivity|]. cbn [flat_map].
    destruct (N.eqb_spec y x) as [->|]; [exfalso; apply Ht; left; reflexivity|].
    cbn [app]. rewrite IH; [reflexivity|]. intros Hin; apply Ht; right; exact Hin. }
  unfold decimal_to_python, nofmt. cbn [nf_group nf_decimal nf_pattern or_str truthy_str pat_has].
  unfold has_e. rewrite (char_mem_absent 101), (char_mem_absent 69) by (apply Hn; [reflexivity|lia]). cbn [orb].
  change (lit "," ++ lit ",") with (44 :: lit ",").
  rewrite contains_absent by (apply Hn; [reflexivity|lia]). cbn [bind negb].
  assert (Hs : forall x y s, numchar y = false -> y <> c -> str_eqb (t ++ [c]) (x ++ y :: s) = false).
  { intros x y s Hy Hyc. apply str_eqb_neq. intros E. apply (Hn y Hy Hyc). rewrite E. apply in_or_app; right; left; reflexivity. }
  change (lit "INF") with ([] ++ 73 :: lit "NF"). change (lit "-INF") with (lit "-" ++ 73 :: lit "NF").
  change (lit "NaN") with ([] ++ 78 :: lit "aN"). rewrite !Hs by (try reflexivity; lia).
  destruct Hc as [[-> ->]|[-> ->]].
  - assert (E : char_mem 37 (t ++ [37]) = true) by (apply char_mem_In, in_or_app; right; left; reflexivity).
    rewrite E. cbn [fst snd]. rewrite Hrem by reflexivity. unfold t. rewrite dec_of_numeral by exact Hok.
    cbn [dec_scale]. rewrite round_fits by exact Hf. reflexivity.
  - rewrite (char_mem_absent 37) by (apply Hn; [reflexivity|lia]).
    assert (E : char_mem 8240 (t ++ [8240]) = true) by (apply char_mem_In, in_or_app; right; left; reflexivity).
    rewrite E. cbn [fst snd]. rewrite Hrem by reflexivity. unfold t. rewrite dec_of_numeral by exact Hok.
    cbn [dec_scale]. rewrite round_fits by exact Hf. reflexivity.
Qed.
End U.

(** ** printing *)
Lemma zeros_length n : (0 <= n)%Z -> Z.of_nat (length (zeros n)) = n.
Proof. unfold zeros. rewrite repeat_length. lia. Qed.
Lemma zeros_digits n : Forall (fun c => 48 <= c <= 57) (zeros n).
Proof. unfold zeros. apply Forall_forall. intros c Hc. apply repeat_spec in Hc. lia. Qed.
Lemma digits_Forall s : all_digits s = true -> Forall (fun c => 48 <= c <= 57) s.
Proof.
  unfold all_digits. rewrite forallb_forall. intros H. apply Forall_forall. intros c Hc. specialize (H c Hc).
  unfold is_digit in H. lia.
Qed.
Lemma Forall_digits s : Forall (fun c => 48 <= c <= 57) s -> all_digits s = true.
Proof.
  intros H. apply forallb_forall. intros c Hc. eapply Forall_forall in H; [|exact Hc]. unfold is_digit. lia.
Qed.

Definition has_point (fp : pystr) : bool := match fp with [] => false | _ => true end.
Definition point_part (fp : pystr) : pystr := match fp with [] => [] | _ => lit "." ++ fp end.
Lemma point_part_num fp : point_part fp = if has_point fp then lit "." ++ fp else [].
Proof. destruct fp; reflexivity. Qed.

Lemma dec_parts_plain c e : printed_plainly c e ->
  exists ip fp, dec_parts c e = (ip, point_part fp)
    /\ numeral_ok ip (has_point fp) fp /\ ip <> [] /\ val_digits (ip ++ fp) = c
    /\ Z.of_nat (length fp) = (- e)%Z.
Proof.
  intros (He & Hl). unfold ndigits in Hl. unfold dec_parts.
  set (int := digits_of c) in *. set (len := Z.of_nat (length int)) in *.
  assert (Hcond : Z.leb e 0 && Z.ltb (-6) (e + len) = true) by lia. rewrite Hcond.
  set (left := (e + len)%Z) in *.
  replace (left - left)%Z with 0%Z by lia. change (Z.eqb 0 0) with true. cbv iota. rewrite app_nil_r.
  assert (Hint : Forall (fun c => 48 <= c <= 57) int) by (apply digits_Forall, digits_of_all).
  assert (Hne : int <> []) by apply digits_of_nonempty.
  assert (Hval : val_digits int = c) by apply val_digits_of.
  assert (Hok : forall ip fp, Forall (fun c => 48 <= c <= 57) ip -> Forall (fun c => 48 <= c <= 57) fp -> ip <> [] ->
     numeral_ok ip (has_point fp) fp).
  { intros ip fp H1 H2 H3. split; [apply Forall_app; auto|]. split; [destruct ip; [congruence|discriminate]|].
    destruct fp; [reflexivity|discriminate]. }
  destruct (Z.ltb_spec left 0) as [Hlt|Hge].
  - exists (lit "0"), (zeros (- left) ++ int).
    assert (H0 : Forall (fun c => 48 <= c <= 57) (lit "0")) by (constructor; [vm_compute; split; discriminate|constructor]).
    repeat split.
    + apply Forall_app; split; [exact H0|]. apply Forall_app; split; [apply zeros_digits|exact Hint].
    + discriminate.
    + destruct (zeros (- left) ++ int); [reflexivity|discriminate].
    + discriminate.
    + change (lit "0") with (repeat 48 1). rewrite val_digits_zeros. unfold zeros. rewrite val_digits_zeros. exact Hval.
    + rewrite app_length, Nat2Z.inj_add, zeros_length by lia. fold len. lia.
  - assert (Hle : Z.ltb len left = false) by lia. rewrite Hle.
    set (k := Z.to_nat left).
    assert (Hk : (k <= length int)%nat) by (unfold k, left, len in *; lia).
    set (ip := match firstn k int with [] => lit "0" | p => p end).
    exists ip, (skipn k int).
    assert (Hipd : Forall (fun c => 48 <= c <= 57) ip).
    { unfold ip. destruct (firstn k int) eqn:E; [constructor; [vm_compute; split; discriminate|constructor]|]. rewrite <- E.
      rewrite <- (firstn_skipn k int) in Hint. apply Forall_app in Hint. apply Hint. }
    assert (Hfd : Forall (fun c => 48 <= c <= 57) (skipn k int)).
    { rewrite <- (firstn_skipn k int) in Hint. apply Forall_app in Hint. apply Hint. }
    assert (Hipn : ip <> []) by (unfold ip; destruct (firstn k int); discriminate).
    split; [reflexivity|]. split; [apply Hok; assumption|]. split; [exact Hipn|]. split.
    + unfold ip. destruct (firstn k int) as [|x l] eqn:E.
      * change (lit "0") with (repeat 48 1). rewrite val_digits_zeros.
        rewrite <- (firstn_skipn k int), E in Hval. exact Hval.
      * rewrite <- E, firstn_skipn. exact Hval.
    + rewrite skipn_length. unfold k, left, len in *. lia.
Qed.

(** numbers printed with an exponent *)
Lemma digits_nosign s : all_digits s = true -> filter (fun c => negb ((c =? 46) || (c =? 45))) s = s.
Proof.
  unfold all_digits. induction s as [|c s IH]; cbn [forallb filter]; intros H; [reflexivity|].
  apply andb_true_iff in H. destruct H as [Hc H]. unfold is_digit in Hc.
  assert (E : negb ((c =? 46) || (c =? 45)) = true) by lia. rewrite E, IH by exact H. reflexivity.
Qed.
Lemma before_absent c a b : ~ In c a -> before c (a ++ c :: b) = a /\ after c (a ++ c :: b) = b.
Proof.
  unfold before, after. induction a as [|x a IH]; cbn [app partition1]; intros H.
  - rewrite N.eqb_refl. split; reflexivity.
  - destruct (N.eqb_spec x c) as [->|]; [exfalso; apply H; left; reflexivity|].
    cbn [fst snd]. destruct IH as [I1 I2]; [intros Hin; apply H; right; exact Hin|]. rewrite I1, I2. split; reflexivity.
Qed.
Lemma ascii_lower_id s : (forall c, In c s -> is_upper c = false) -> ascii_lower s = s.
Proof.
  unfold ascii_lower. induction s as [|c s IH]; cbn [map]; intros H; [reflexivity|].
  unfold lower1 at 1. rewrite (H c (or_introl eq_refl)), IH by (intros x Hx; apply H; right; exact Hx). reflexivity.
Qed.

Lemma int_str_plus_neg z : (z < 0)%Z -> int_str_plus z = 45 :: digits_of (Z.to_N (- z)).
Proof. intros H. unfold int_str_plus. destruct z; try lia. reflexivity. Qed.
Lemma int_str_plus_pos z : (0 < z)%Z -> int_str_plus z = 43 :: digits_of (Z.to_N z).
Proof. intros H. unfold int_str_plus. destruct z; try lia. reflexivity. Qed.

Lemma numchars_lower s : forallb numchar s = true -> ascii_lower s = s.
Proof.
  intros H. apply ascii_lower_id. intros c Hc. rewrite forallb_forall in H. specialize (H c Hc).
  unfold numchar, is_digit, is_upper in *. lia.
Qed.
(** expansion of  [-]d[.ddd]E[+-]n  *)
Lemma expand_sci neg neg' d ds sgn n :
  is_digit d = true -> all_digits ds = true -> (sgn = 43 \/ sgn = 45) -> n <> 0 ->
  expand neg (sign_str neg' ++ d :: point_part ds ++ lit "E" ++ sgn :: digits_of n) =
  Ok (if sgn =? 43 then sign_str neg ++ (d :: ds) ++ repeat 48 (N.to_nat n - 1) ++ lit ".0"
      else sign_str neg ++ lit "0." ++ repeat 48 (N.to_nat n - 1) ++ d :: ds).
Proof.
  intros Hd Hds Hs Hn. unfold expand.
  set (m := sign_str neg' ++ d :: point_part ds).
  replace (sign_str neg' ++ d :: point_part ds ++ lit "E" ++ sgn :: digits_of n)
    with (m ++ 69 :: sgn :: digits_of n) by (unfold m; rewrite <- app_assoc; reflexivity).
  assert (Hm : forallb numchar m = true).
  { unfold m. rewrite forallb_app. cbn [forallb]. rewrite (digit_numchar d Hd).
    assert (Hp : forallb numchar (point_part ds) = true).
    { destruct ds as [|x ds]; [reflexivity|]. change (point_part (x :: ds)) with (46 :: x :: ds).
      change (forallb numchar (46 :: x :: ds)) with (forallb numchar (x :: ds)). apply digits_numchars, Hds. }
    rewrite Hp. destruct neg'; reflexivity. }
  assert (Hlow : ascii_lower (m ++ 69 :: sgn :: digits_of n) = m ++ 101 :: sgn :: digits_of n).
  { unfold ascii_lower. rewrite map_app. fold (ascii_lower m). rewrite numchars_lower by exact Hm. cbn [map].
    fold (ascii_lower (digits_of n)). rewrite (numchars_lower (digits_of n)) by (apply digits_numchars, digits_of_all).
    change (lower1 69) with 101. destruct Hs as [-> | ->]; reflexivity. }
  rewrite Hlow.
  destruct (before_absent 101 m (sgn :: digits_of n)) as [-> ->]; [eapply numchars_absent; [exact Hm|reflexivity]|].
  assert (Hfil : filter (fun c => negb ((c =? 46) || (c =? 45))) m = d :: ds).
  { unfold m. rewrite filter_app.
    replace (filter (fun c => negb ((c =? 46) || (c =? 45))) (sign_str neg')) with (@nil N) by (destruct neg'; reflexivity).
    cbn [app filter]. assert (E : negb ((d =? 46) || (d =? 45)) = true) by (unfold is_digit in Hd; lia). rewrite E. f_equal.
    destruct ds as [|x ds]; [reflexivity|]. change (point_part (x :: ds)) with (46 :: x :: ds).
    change (filter (fun c => negb ((c =? 46) || (c =? 45))) (46 :: x :: ds)) with
      (filter (fun c => negb ((c =? 46) || (c =? 45))) (x :: ds)). apply digits_nosign, Hds. }
  rewrite Hfil. rewrite digits_of_all, val_digits_of.
  assert (Hz : negb (n =? 0) = true) by lia. rewrite Hz.
  destruct Hs as [-> | ->]; cbn [N.eqb Pos.eqb orb andb]; reflexivity.
Qed.

Lemma dec_parts_sci c e : ~ printed_plainly c e ->
  exists d ds, digits_of c = d :: ds /\ dec_parts c e =
    ([d], point_part ds ++ lit "E" ++ int_str_plus (e + Z.of_nat (length ds)))
    /\ (e + Z.of_nat (length ds) <> 0)%Z.
Proof.
  intros H. unfold printed_plainly, ndigits in H. unfold dec_parts.
  pose proof (digits_of_nonempty c) as Hne. destruct (digits_of c) as [|d ds] eqn:E; [congruence|].
  exists d, ds. cbn [length] in *.
  assert (Hcond : Z.leb e 0 && Z.ltb (-6) (e + Z.of_nat (S (length ds))) = false) by lia. rewrite Hcond.
  assert (H1 : Z.ltb 1 0 = false) by reflexivity. rewrite H1.
  assert (H2 : Z.ltb (Z.of_nat (S (length ds))) 1 = false) by lia. rewrite H2.
  change (Z.to_nat 1) with 1%nat. cbn [firstn skipn].
  assert (Hz : (e + Z.of_nat (S (length ds)) - 1 = e + Z.of_nat (length ds))%Z) by lia. rewrite Hz.
  split; [reflexivity|]. split.
  - destruct (Z.eqb_spec (e + Z.of_nat (length ds)) 0); [lia|]. reflexivity.
  - lia.
Qed.
