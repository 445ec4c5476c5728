(** C15-C18. *)
From Verif Require Import PyStr Dec Numeric NumericSpec DecProofs DecProofs2.
From Coq Require Import ZifyBool ZifyN ZifyNat.

Section U.
Variable udigit : N -> option N.
Variable babel : num -> pystr -> res pystr.

(** ** plain texts *)
Lemma plain_not_special neg ip rest :
  ip <> [] -> Forall (fun c => 48 <= c <= 57) ip ->
  let t := sign_str neg ++ ip ++ rest in
  str_eqb t (lit "Infinity") = false /\ str_eqb t (lit "-Infinity") = false /\ str_eqb t (lit "NaN") = false
  /\ str_eqb t (lit "INF") = false /\ str_eqb t (lit "-INF") = false.
Proof.
  intros Hne Hd t. destruct ip as [|c ip]; [congruence|]. inversion Hd as [|? ? Hc _]; subst.
  unfold t. repeat split; apply str_eqb_neq; intros E; destruct neg; cbn in E; injection E; intros; lia.
Qed.
Lemma parts_head c e : exists x xs, fst (dec_parts c e) = x :: xs /\ Forall (fun y => 48 <= y <= 57) (x :: xs).
Proof.
  destruct (Z.leb e 0 && Z.ltb (-6) (e + Z.of_nat (ndigits c)))%Z eqn:E.
  - destruct (dec_parts_plain c e) as (ip & fp & Hp & (Hok & _) & Hne & _); [unfold printed_plainly; lia|].
    rewrite Hp. cbn [fst]. apply Forall_app in Hok. destruct ip as [|x xs]; [congruence|].
    exists x, xs. split; [reflexivity|apply Hok].
  - destruct (dec_parts_sci c e) as (d & ds & Hd & Hp & _); [unfold printed_plainly; lia|].
    rewrite Hp. exists d, []. split; [reflexivity|]. constructor; [|constructor].
    pose proof (digits_of_all c) as A. rewrite Hd in A. apply digits_Forall in A. inversion A; assumption.
Qed.
Lemma fin_not_special neg c e :
  str_eqb (dec_format false (Fin neg c e)) (lit "Infinity") = false
  /\ str_eqb (dec_format false (Fin neg c e)) (lit "-Infinity") = false
  /\ str_eqb (dec_format false (Fin neg c e)) (lit "NaN") = false.
Proof.
  destruct (parts_head c e) as (x & xs & E & H).
  cbn [dec_format]. rewrite E.
  destruct (plain_not_special neg (x :: xs) (snd (dec_parts c e)) ltac:(discriminate) H) as (H1 & H2 & H3 & _). auto.
Qed.

Lemma numeral_of_parts neg ip fp :
  sign_str neg ++ ip ++ point_part fp = numeral neg false ip (has_point fp) fp.
Proof. unfold numeral. rewrite point_part_num. destruct neg; reflexivity. Qed.
Lemma numeral_no_e neg plus ip point fp : numeral_ok ip point fp -> has_e (numeral neg plus ip point fp) = false.
Proof.
  intros H. pose proof (numeral_chars neg plus ip point fp H) as Hc. unfold has_e.
  rewrite !char_mem_absent by (eapply numchars_absent; [exact Hc|reflexivity]). reflexivity.
Qed.

(** C16: printing without a format *)
Lemma to_string_plain neg c e : printed_plainly c e ->
  exists ip fp, decimal_to_string babel nofmt (NDec (Fin neg c e)) = Ok (numeral neg false ip (has_point fp) fp)
    /\ numeral_ok ip (has_point fp) fp /\ val_digits (ip ++ fp) = c /\ Z.of_nat (length fp) = (- e)%Z.
Proof.
  intros Hp. destruct (dec_parts_plain c e Hp) as (ip & fp & E & Hok & Hne & Hv & Hl).
  exists ip, fp. split; [|auto]. unfold decimal_to_string. cbn [num_format].
  destruct (fin_not_special neg c e) as (H1 & H2 & H3). rewrite H1, H2, H3.
  cbn [nofmt nf_pattern truthy_str num_neg dec_neg bind nf_group nf_decimal dec_format].
  rewrite E. cbn [fst snd]. rewrite numeral_of_parts, numeral_no_e by exact Hok. reflexivity.
Qed.
Lemma to_string_sci neg c e d ds : ~ printed_plainly c e -> digits_of c = d :: ds ->
  decimal_to_string babel nofmt (NDec (Fin neg c e)) =
  let neg' := neg && negb (c =? 0) in
  let a := (e + Z.of_nat (length ds))%Z in
  Ok (if Z.ltb 0 a then sign_str neg' ++ (d :: ds) ++ repeat 48 (Z.to_nat a - 1) ++ lit ".0"
      else sign_str neg' ++ lit "0." ++ repeat 48 (Z.to_nat (- a) - 1) ++ d :: ds).
Proof.
  intros Hs Hd. destruct (dec_parts_sci c e Hs) as (d' & ds' & Hd' & E & Hz).
  rewrite Hd in Hd'. injection Hd' as <- <-.
  unfold decimal_to_string. cbn [num_format].
  destruct (fin_not_special neg c e) as (H1 & H2 & H3). rewrite H1, H2, H3.
  cbn [nofmt nf_pattern truthy_str num_neg dec_neg bind nf_group nf_decimal dec_format].
  rewrite E. cbn [fst snd]. set (a := (e + Z.of_nat (length ds))%Z) in *.
  pose proof (digits_of_all c) as A. rewrite Hd in A. unfold all_digits in A. cbn [forallb] in A.
  apply andb_true_iff in A. destruct A as [Ad Ads].
  assert (Hhe : has_e (sign_str neg ++ [d] ++ point_part ds ++ lit "E" ++ int_str_plus a) = true).
  { unfold has_e. rewrite orb_true_iff. right. apply char_mem_In. rewrite !in_app_iff. right; right; right; left. left; reflexivity. }
  rewrite Hhe. cbn [app]. cbv zeta.
  destruct (Z.ltb_spec 0 a) as [Ha|Ha].
  - rewrite int_str_plus_pos by exact Ha. rewrite expand_sci by (try assumption; try (left; reflexivity); lia).
    change (43 =? 43) with true. cbv iota. rewrite ?Z_N_nat. reflexivity.
  - rewrite int_str_plus_neg by lia. rewrite expand_sci by (try assumption; try (right; reflexivity); lia).
    change (45 =? 43) with false. cbv iota. rewrite ?Z_N_nat. reflexivity.
Qed.

Theorem decimal_roundtrip neg c e : (e <= 0)%Z -> fits c ->
  exists t, decimal_to_string babel nofmt (NDec (Fin neg c e)) = Ok t
    /\ exists neg', decimal_to_python udigit nofmt t = Ok (Fin neg' c e)
       /\ (neg' = neg \/ c = 0) /\ (printed_plainly c e -> neg' = neg).
Proof.
  intros He Hf.
  destruct (Z.ltb (-6) (e + Z.of_nat (ndigits c)))%Z eqn:Ep.
  - assert (Hp : printed_plainly c e) by (unfold printed_plainly; lia).
    destruct (to_string_plain neg c e Hp) as (ip & fp & Ht & Hok & Hv & Hl).
    eexists; split; [exact Ht|]. exists neg. split; [|auto].
    rewrite read_numeral by (try exact Hok; rewrite Hv; exact Hf). rewrite Hv. do 2 f_equal. lia.
  - assert (Hs : ~ printed_plainly c e) by (unfold printed_plainly; lia).
    pose proof (digits_of_nonempty c) as Hne. destruct (digits_of c) as [|d ds] eqn:Hd; [congruence|].
    rewrite (to_string_sci neg c e d ds Hs Hd). cbv zeta.
    set (a := (e + Z.of_nat (length ds))%Z).
    assert (Ha : (a < 0)%Z) by (unfold a; unfold ndigits in Ep; rewrite Hd in Ep; cbn [length] in Ep; lia).
    assert (Hb : Z.ltb 0 a = false) by lia. rewrite Hb.
    eexists; split; [reflexivity|]. exists (neg && negb (c =? 0)).
    split; [|split; [destruct neg; [destruct (N.eqb_spec c 0); auto|left; reflexivity]|contradiction]].
    set (ng := neg && negb (c =? 0)). set (z := repeat 48 (Z.to_nat (- a) - 1)).
    replace (sign_str ng ++ lit "0." ++ z ++ d :: ds) with (numeral ng false (lit "0") true (z ++ d :: ds))
      by (unfold numeral; destruct ng; reflexivity).
    pose proof (digits_of_all c) as A. rewrite Hd in A. apply digits_Forall in A.
    assert (Hv : val_digits (lit "0" ++ z ++ d :: ds) = c).
    { change (lit "0") with (repeat 48 1). rewrite val_digits_zeros. unfold z. rewrite val_digits_zeros.
      rewrite <- Hd. apply val_digits_of. }
    rewrite read_numeral.
    + rewrite Hv. do 2 f_equal. unfold z. rewrite app_length, repeat_length. cbn [length]. unfold a in *. lia.
    + split; [|split; [discriminate|discriminate]]. apply Forall_app. split; [constructor; [vm_compute; split; discriminate|constructor]|].
      apply Forall_app. split; [|exact A]. unfold z. apply Forall_forall. intros x Hx. apply repeat_spec in Hx. lia.
    + rewrite Hv. exact Hf.
Qed.

(** positive exponents: the text denotes c * 10^(adjusted - 1) *)
Theorem decimal_positive_exponent neg c e : (0 < e)%Z ->
  let a := Z.to_N (e + Z.of_nat (ndigits c) - 1) in
  fits (c * 10 ^ a) ->
  exists t neg', decimal_to_string babel nofmt (NDec (Fin neg c e)) = Ok t
    /\ decimal_to_python udigit nofmt t = Ok (Fin neg' (c * 10 ^ a) (-1))
    /\ (neg' = neg \/ c = 0)
    /\ (dec_eq (Fin neg c e) (Fin neg' (c * 10 ^ a) (-1)) <-> c = 0 \/ ndigits c = 2%nat).
Proof.
  intros He a Hf.
  assert (Hs : ~ printed_plainly c e) by (unfold printed_plainly; lia).
  pose proof (digits_of_nonempty c) as Hne. destruct (digits_of c) as [|d ds] eqn:Hd; [congruence|].
  assert (Hnd : ndigits c = S (length ds)) by (unfold ndigits; rewrite Hd; reflexivity).
  rewrite (to_string_sci neg c e d ds Hs Hd). cbv zeta.
  set (b := (e + Z.of_nat (length ds))%Z). assert (Hb : Z.ltb 0 b = true) by (unfold b; lia). rewrite Hb.
  set (ng := neg && negb (c =? 0)). set (z := repeat 48 (Z.to_nat b - 1)).
  exists (sign_str ng ++ (d :: ds) ++ z ++ lit ".0"), ng.
  split; [reflexivity|].
  assert (Ha : a = Z.to_N b) by (unfold a, b; rewrite Hnd; f_equal; lia).
  pose proof (digits_of_all c) as A. rewrite Hd in A. apply digits_Forall in A.
  assert (Hz : forall n, val_digits (repeat 48 n) = 0) by (intros n; rewrite <- (app_nil_r (repeat 48 n)); apply val_digits_zeros).
  assert (Hv : val_digits (((d :: ds) ++ z) ++ lit "0") = c * 10 ^ a).
  { rewrite <- app_assoc. rewrite val_digits_app, app_length. unfold z. rewrite val_digits_zeros, repeat_length.
    replace (val_digits (lit "0")) with 0 by reflexivity. rewrite <- Hd, val_digits_of, N.add_0_r. f_equal. f_equal.
    cbn [length lit]. rewrite Ha. unfold b. lia. }
  split; [|split].
  - replace (sign_str ng ++ (d :: ds) ++ z ++ lit ".0") with (numeral ng false ((d :: ds) ++ z) true (lit "0")).
    + rewrite read_numeral.
      * rewrite Hv. reflexivity.
      * split; [|split; [discriminate|discriminate]]. apply Forall_app. split.
        -- apply Forall_app. split; [exact A|]. unfold z. apply Forall_forall. intros x Hx. apply repeat_spec in Hx. lia.
        -- constructor; [vm_compute; split; discriminate|constructor].
      * rewrite Hv. exact Hf.
    + unfold numeral. destruct ng; rewrite <- app_assoc; reflexivity.
  - unfold ng. destruct neg; [destruct (N.eqb_spec c 0); auto|left; reflexivity].
  - unfold dec_eq. rewrite Z.min_r by lia. unfold scaled.
    replace (-1 - -1)%Z with 0%Z by lia. rewrite Z.pow_0_r, Z.mul_1_r.
    assert (Eca : Z.of_N (c * 10 ^ a) = (Z.of_N c * 10 ^ b)%Z).
    { rewrite N2Z.inj_mul, N2Z.inj_pow. rewrite Ha. rewrite Z2N.id by (unfold b; lia). reflexivity. }
    rewrite Eca.
    destruct (N.eq_dec c 0) as [->|Hc].
    + split; [left; reflexivity|]. intros _. change (Z.of_N 0) with 0%Z. rewrite !Z.mul_0_r, !Z.mul_0_l. ring.
    + assert (Eng : ng = neg) by (unfold ng; destruct (N.eqb_spec c 0); [contradiction|]; rewrite andb_true_r; reflexivity).
      rewrite Eng. split.
      * intros H. right. assert (Hp : (10 ^ (e - -1) = 10 ^ b)%Z).
        { destruct neg; nia. }
        apply Z.pow_inj_r in Hp; [|lia|lia|unfold b; lia]. unfold b in Hp. rewrite Hnd. lia.
      * intros [->|H2]; [congruence|]. assert (b = (e - -1)%Z) by (unfold b; rewrite Hnd in H2; lia). rewrite H. lia.
Qed.

(** infinities and NaN *)
Theorem decimal_specials d : d = Inf false \/ d = Inf true \/ d = NaN false false [] ->
  exists t, decimal_to_string babel nofmt (NDec d) = Ok t /\ decimal_to_python udigit nofmt t = Ok d.
Proof. intros [->|[->| ->]]; eexists; split; reflexivity. Qed.

(** ** C15 *)
Lemma in_range_documented name r z : In (name, r) integer_types ->
  (in_range r z = true <-> documented_range name z).
Proof.
  intros H. unfold integer_types in H. cbn [In] in H.
  repeat (destruct H as [E|H]; [injection E as <- <-; unfold in_range, documented_range; cbn [r_min r_max rng no_range];
    repeat match goal with |- context [str_eqb ?a ?b] => let x := eval vm_compute in (str_eqb a b) in change (str_eqb a b) with x end;
    cbv iota; lia|]).
  contradiction.
Qed.

Theorem integer_numeral name r neg plus ip point fp :
  In (name, r) integer_types ->
  numeral_ok ip point fp -> fits (val_digits (ip ++ fp)) ->
  let v := val_digits (ip ++ fp) in
  let s := numeral neg plus ip point fp in
  (forall n, v = n * 10 ^ N.of_nat (length fp) -> documented_range name (signed neg n) ->
     integer_to_python udigit r nofmt s = Ok (signed neg n))
  /\ (forall n, v = n * 10 ^ N.of_nat (length fp) -> ~ documented_range name (signed neg n) ->
     integer_to_python udigit r nofmt s = Err ValueError)
  /\ ((forall n, v <> n * 10 ^ N.of_nat (length fp)) ->
     integer_to_python udigit r nofmt s = Err ValueError).
Proof.
  intros Hin Hok Hf v s. unfold integer_to_python, s. rewrite read_numeral by assumption. cbn [bind].
  fold v. set (k := length fp).
  assert (Hdec : dec_as_int (Fin neg v (- Z.of_nat k)) =
    if v mod 10 ^ N.of_nat k =? 0 then Ok (Some (signed neg (v / 10 ^ N.of_nat k))) else Ok None).
  { unfold dec_as_int, signed. destruct k as [|k'] eqn:Ek.
    - cbn [Z.of_nat Z.opp Z.leb Z.compare]. cbn [N.of_nat]. rewrite N.pow_0_r, N.mod_1_r, N.div_1_r. cbn [N.eqb].
      cbn [Z.to_N]. rewrite ?N.pow_0_r, N.mul_1_r. reflexivity.
    - destruct (Z.leb_spec 0 (- Z.of_nat (S k'))); [lia|].
      replace (Z.to_N (- - Z.of_nat (S k'))) with (N.of_nat (S k')) by lia. reflexivity. }
  rewrite Hdec. assert (Hpow : 10 ^ N.of_nat k <> 0) by (apply N.pow_nonzero; lia).
  split; [|split].
  - intros n Hv Hr. rewrite Hv, N.mod_mul by exact Hpow. cbn [N.eqb bind]. rewrite N.div_mul by exact Hpow.
    apply (in_range_documented name r _ Hin) in Hr. rewrite Hr. reflexivity.
  - intros n Hv Hr. rewrite Hv, N.mod_mul by exact Hpow. cbn [N.eqb bind]. rewrite N.div_mul by exact Hpow.
    destruct (in_range r (signed neg n)) eqn:E; [|reflexivity]. exfalso. apply Hr, (in_range_documented name r _ Hin), E.
  - intros Hn. destruct (N.eqb_spec (v mod 10 ^ N.of_nat k) 0) as [E|E]; [|reflexivity].
    exfalso. apply (Hn (v / 10 ^ N.of_nat k)). pose proof (N.div_mod v (10 ^ N.of_nat k) Hpow). lia.
Qed.

Lemma num_int_dec z f :
  decimal_to_string babel f (NInt z) =
  match truthy_str (nf_pattern f) with
  | None => decimal_to_string babel f (NDec (Fin (Z.ltb z 0) (Z.to_N (Z.abs z)) 0))
  | Some _ => decimal_to_string babel f (NInt z)
  end.
Proof.
  destruct (truthy_str (nf_pattern f)) eqn:Ep; [reflexivity|].
  assert (Hparts : forall n, dec_parts n 0 = (digits_of n, [])).
  { intros n. destruct (dec_parts_plain n 0) as (ip & fp & E & (Hd & _) & Hne & Hv & Hl);
      [unfold printed_plainly; pose proof (ndigits_pos n); lia|].
    assert (fp = []) by (destruct fp; [reflexivity|cbn in Hl; lia]). subst fp. cbn [point_part] in E. rewrite E. f_equal.
    unfold dec_parts in E. 
    assert (Hc : Z.leb 0 0 && Z.ltb (-6) (0 + Z.of_nat (length (digits_of n))) = true) by lia. rewrite Hc in E.
    injection E as E _.
    rewrite Z.ltb_irrefl in E. destruct (Z.ltb_spec (Z.of_nat (length (digits_of n))) 0); [lia|].
    rewrite Nat2Z.id, firstn_all in E. pose proof (digits_of_nonempty n). destruct (digits_of n); [congruence|]. symmetry; exact E. }
  assert (Hfmt : forall g, num_format g (NInt z) = num_format g (NDec (Fin (Z.ltb z 0) (Z.to_N (Z.abs z)) 0))).
  { intros g. cbn [num_format dec_format]. rewrite Hparts. cbn [fst snd]. rewrite app_nil_r.
    destruct z; reflexivity. }
  assert (Hneg : num_neg (NInt z) = num_neg (NDec (Fin (Z.ltb z 0) (Z.to_N (Z.abs z)) 0))).
  { cbn [num_neg dec_neg]. destruct z; reflexivity. }
  unfold decimal_to_string. rewrite !Hfmt, Hneg, Ep. reflexivity.
Qed.

Lemma signed_abs z : signed (Z.ltb z 0) (Z.to_N (Z.abs z)) = z.
Proof. unfold signed. destruct (Z.ltb_spec z 0); lia. Qed.

Theorem integer_roundtrip name r z : In (name, r) integer_types ->
  fits (Z.to_N (Z.abs z)) -> documented_range name z ->
  exists t, decimal_to_string babel nofmt (NInt z) = Ok t /\ integer_to_python udigit r nofmt t = Ok z.
Proof.
  intros Hin Hf Hr. rewrite num_int_dec. cbn [nofmt nf_pattern truthy_str].
  set (n := Z.to_N (Z.abs z)) in *. set (ng := Z.ltb z 0).
  destruct (to_string_plain ng n 0) as (ip & fp & Ht & Hok & Hv & Hl);
    [unfold printed_plainly; pose proof (ndigits_pos n); lia|].
  eexists; split; [exact Ht|].
  assert (fp = []) by (destruct fp; [reflexivity|cbn in Hl; lia]). subst fp.
  destruct (integer_numeral name r ng false ip (has_point []) [] Hin Hok) as (H1 & _ & _); [rewrite Hv; exact Hf|].
  rewrite Hv in H1. specialize (H1 n). cbn [length N.of_nat] in H1. rewrite N.pow_0_r, N.mul_1_r in H1.
  unfold ng, n in H1; rewrite signed_abs in H1. apply H1; [reflexivity|exact Hr].
Qed.

End U.
