(** C14, C20, C22. *)
From Verif Require Import PyStr Json Basic BasicSpec PatternProofs.
From Coq Require Import ZifyBool ZifyN ZifyNat.

(** ** booleans *)
Lemma count_char_In c s : count_char c s = 0%nat <-> ~ In c s.
Proof.
  unfold count_char. induction s as [|x s IH]; cbn [filter]; [cbn; tauto|].
  destruct (N.eqb_spec c x) as [->|Hn]; cbn [length In].
  - split; [lia|]. intros H. exfalso. apply H. auto.
  - rewrite IH. split; [intros H [E|E]; [congruence|contradiction]|tauto].
Qed.
Lemma count_one c s : count_char c s = 1%nat -> exists a b, s = a ++ c :: b /\ ~ In c a /\ ~ In c b.
Proof.
  induction s as [|x s IH]; [discriminate|]. unfold count_char in *. cbn [filter].
  destruct (N.eqb_spec c x) as [<-|Hn]; cbn [length].
  - intros H. exists [], s. cbn. repeat split; auto. apply count_char_In. unfold count_char. lia.
  - intros H. destruct (IH H) as (a & b & -> & Ha & Hb). exists (x :: a), b. cbn. repeat split; auto.
    intros [E|E]; [congruence|contradiction].
Qed.
Lemma bool_words_format x y : no_bar x -> no_bar y -> bool_words (bool_format x y) = ([x], [y]).
Proof.
  intros Hx Hy. unfold bool_words, bool_format. change (x ++ lit "|" ++ y) with (x ++ 124 :: y).
  assert (E : count_char 124 (x ++ 124 :: y) = 1%nat).
  { rewrite count_app. apply count_char_In in Hx. rewrite Hx. unfold count_char in *. cbn [filter N.eqb Pos.eqb length].
    apply count_char_In in Hy. unfold count_char in Hy. rewrite Hy. reflexivity. }
  rewrite E. cbn [Nat.eqb].
  assert (Es : split (lit "|") (x ++ 124 :: y) = [x; y]).
  { apply (split_join 124 [x; y]); [discriminate|]. repeat constructor; assumption. }
  rewrite Es. reflexivity.
Qed.
Definition default_words : list pystr * list pystr := ([lit "true"; lit "1"], [lit "false"; lit "0"]).
Lemma bool_words_cases fmt :
  (exists x y, no_bar x /\ no_bar y /\ fmt = bool_format x y) \/ bool_words fmt = default_words.
Proof.
  destruct fmt as [| | | |f| |]; try (right; reflexivity).
  cbn [bool_words]. destruct (Nat.eqb_spec (count_char 124 f) 1) as [E|]; [|right; reflexivity].
  left. destruct (count_one _ _ E) as (a & b & -> & Ha & Hb). exists a, b. repeat split; assumption.
Qed.
Lemma bool_words_unusable fmt : unusable fmt -> bool_words fmt = default_words.
Proof.
  intros H. destruct (bool_words_cases fmt) as [(x & y & Hx & Hy & ->)|E]; [|exact E].
  exfalso. apply (H x y Hx Hy eq_refl).
Qed.
Theorem bool_roundtrip fmt b :
  (forall x, no_bar x -> fmt <> bool_format x x) ->
  bool_to_python (bool_words fmt) (bool_to_string (bool_words fmt) b) = Ok b.
Proof.
  intros H. destruct (bool_words_cases fmt) as [(x & y & Hx & Hy & ->)|E].
  - rewrite bool_words_format by assumption. unfold bool_to_python, bool_to_string. cbn [fst snd].
    assert (Hne : x <> y) by (intros ->; apply (H y Hx eq_refl)).
    destruct b; cbn [hd].
    + assert (E : str_mem x [x] = true) by (apply str_mem_In; left; reflexivity). rewrite E. reflexivity.
    + assert (E1 : str_mem y [x] = false) by (apply str_mem_false; intros [E|[]]; congruence).
      assert (E2 : str_mem y [y] = true) by (apply str_mem_In; left; reflexivity). rewrite E1, E2. reflexivity.
  - rewrite E. destruct b; reflexivity.
Qed.
Theorem bool_read_format x y s : no_bar x -> no_bar y ->
  bool_to_python (bool_words (bool_format x y)) s
  = if str_eqb s x then Ok true else if str_eqb s y then Ok false else Err ValueError.
Proof.
  intros Hx Hy. rewrite bool_words_format by assumption. unfold bool_to_python, str_mem. cbn [fst snd existsb].
  rewrite !orb_false_r. reflexivity.
Qed.
Theorem bool_read_default fmt s : unusable fmt ->
  bool_to_python (bool_words fmt) s
  = if str_eqb s (lit "true") || str_eqb s (lit "1") then Ok true
    else if str_eqb s (lit "false") || str_eqb s (lit "0") then Ok false else Err ValueError.
Proof.
  intros H. rewrite bool_words_unusable by exact H. unfold bool_to_python, str_mem, default_words. cbn [fst snd existsb].
  rewrite !orb_false_r. reflexivity.
Qed.

(** ** hexBinary *)
Lemma hex_val_digit n : n < 16 -> hex_val (hex_digit n) = Some n /\ hex_val (upper1 (hex_digit n)) = Some n
   /\ upper1 (hex_digit n) < 128.
Proof.
  intros H. assert (C : n = 0 \/ n = 1 \/ n = 2 \/ n = 3 \/ n = 4 \/ n = 5 \/ n = 6 \/ n = 7 \/ n = 8 \/ n = 9 \/ n = 10
    \/ n = 11 \/ n = 12 \/ n = 13 \/ n = 14 \/ n = 15) by lia.
  repeat destruct C as [->|C]; try (repeat split; reflexivity). subst. repeat split; reflexivity.
Qed.
Lemma unhex_hexlify b : is_bytes b -> unhexlify (ascii_upper (hexlify b)) = Some b
  /\ forallb (fun c => c <? 128) (ascii_upper (hexlify b)) = true.
Proof.
  induction 1 as [|x b Hx _ [IH1 IH2]]; [split; reflexivity|].
  change (hexlify (x :: b)) with (hex_digit (x / 16) :: hex_digit (x mod 16) :: hexlify b).
  cbn [ascii_upper map]. fold (ascii_upper (hexlify b)).
  assert (H1 : x / 16 < 16) by (apply N.div_lt_upper_bound; lia).
  assert (H2 : x mod 16 < 16) by (apply N.mod_lt; lia).
  destruct (hex_val_digit _ H1) as (_ & E1 & A1). destruct (hex_val_digit _ H2) as (_ & E2 & A2).
  cbn [unhexlify forallb]. rewrite E1, E2, IH1, IH2. split; [|lia].
  do 2 f_equal. rewrite N.mul_comm. symmetry. apply N.div_mod. lia.
Qed.
Theorem hex_roundtrip b : is_bytes b -> hex_to_python (hex_to_string b) = Ok b.
Proof.
  intros H. destruct (unhex_hexlify b H) as [H1 H2]. unfold hex_to_python, hex_to_string, to_binary. rewrite H2, H1. reflexivity.
Qed.
Lemma hex_val_spec c x : hex_val c = Some x -> hex_char c /\ x < 16 /\ upper1 c = upper1 (hex_digit x).
Proof.
  unfold hex_val, hex_char, is_digit, upper1, is_lower, hex_digit.
  repeat match goal with |- context [if ?b then _ else _] => destruct b eqn:? end; intros E; try discriminate; injection E as <-;
  repeat split; lia.
Qed.
Lemma hex_char_val c : hex_char c -> exists x, hex_val c = Some x.
Proof.
  unfold hex_val, hex_char, is_digit. intros H.
  repeat match goal with |- context [if ?b then _ else _] => destruct b eqn:? end; eauto. exfalso. lia.
Qed.
Lemma list_ind2 {A} (P : list A -> Prop) : P [] -> (forall a, P [a]) -> (forall a b l, P l -> P (a :: b :: l)) -> forall l, P l.
Proof.
  intros H0 H1 H2 l. assert (H : P l /\ forall a, P (a :: l)); [|apply H].
  induction l as [|x l [IH1 IH2]]; split; auto.
Qed.
Lemma unhex_spec s : match unhexlify s with
  | Some b => hex_text s /\ is_bytes b /\ ascii_upper (hexlify b) = ascii_upper s
  | None => ~ hex_text s
  end.
Proof.
  induction s as [|a|a b s IH] using list_ind2.
  - cbn. repeat split; try constructor. exists 0%nat. reflexivity.
  - cbn. intros [_ [n H]]. cbn in H. lia.
  - cbn [unhexlify].
    assert (Hno : forall c, (c = a \/ c = b) -> hex_val c = None -> ~ hex_text (a :: b :: s)).
    { intros c Hc E [H _]. inversion H as [|? ? Ha H']; subst. inversion H' as [|? ? Hb _]; subst.
      destruct Hc as [->| ->]; [destruct (hex_char_val a Ha)|destruct (hex_char_val b Hb)]; congruence. }
    destruct (hex_val a) as [x|] eqn:Ea; [|apply (Hno a); auto].
    destruct (hex_val b) as [y|] eqn:Eb; [|apply (Hno b); auto].
    destruct (unhexlify s) as [r|].
    + destruct IH as ([H1 [n H2]] & H3 & H4). destruct (hex_val_spec a x Ea) as (Ca & Lx & Ux).
      destruct (hex_val_spec b y Eb) as (Cb & Ly & Uy).
      split; [split; [constructor; [exact Ca|constructor; [exact Cb|exact H1]]|exists (S n); cbn [length]; lia]|].
      split; [constructor; [lia|exact H3]|].
      change (hexlify (x * 16 + y :: r)) with (hex_digit ((x * 16 + y) / 16) :: hex_digit ((x * 16 + y) mod 16) :: hexlify r).
      replace ((x * 16 + y) / 16) with x by (rewrite N.div_add_l, N.div_small by lia; lia).
      replace ((x * 16 + y) mod 16) with y by (rewrite N.add_comm, N.mod_add, N.mod_small by lia; lia).
      unfold ascii_upper in *. cbn [map]. rewrite H4, Ux, Uy. reflexivity.
    + intros [H [n Hn]]. apply IH. inversion H as [|? ? _ H']; subst. inversion H' as [|? ? _ H'']; subst.
      split; [exact H''|]. cbn [length] in Hn. exists (n - 1)%nat. lia.
Qed.
Theorem hex_valid s : hex_text s ->
  exists b, hex_to_python s = Ok b /\ is_bytes b /\ hex_to_string b = ascii_upper s.
Proof.
  intros H. pose proof (unhex_spec s) as S. unfold hex_to_python, to_binary, hex_to_string.
  assert (E : forallb (fun c => c <? 128) s = true).
  { apply forallb_forall. intros c Hc. destruct H as [H _]. eapply Forall_forall in H; [|exact Hc]. unfold hex_char in H. lia. }
  rewrite E. destruct (unhexlify s) as [b|]; [|contradiction]. exists b. tauto.
Qed.
Theorem hex_invalid s : ~ hex_text s -> hex_to_python s = Err ValueError.
Proof.
  intros H. pose proof (unhex_spec s) as S. unfold hex_to_python, to_binary.
  destruct (forallb _ s); [|reflexivity]. destruct (unhexlify s); [tauto|reflexivity].
Qed.

(** ** base64 *)
Lemma b64_val_char v : v < 64 -> b64_val (b64_char v) = Some v /\ b64_char v <> 61 /\ is_space (b64_char v) = false
   /\ b64_char v < 128.
Proof.
  intros H. unfold b64_val, b64_char, is_digit, is_space.
  repeat match goal with |- context [if ?b then _ else _] => destruct b eqn:? end; repeat split; try (f_equal; lia); try lia.
Qed.
Lemma a2b_val v s quad left pads : v < 64 ->
  a2b (b64_char v :: s) quad left pads =
  match quad with
  | O => a2b s 1 v 0
  | 1%nat => option_map (cons (left * 4 + v / 16)) (a2b s 2 (v mod 16) 0)
  | 2%nat => option_map (cons (left * 16 + v / 4)) (a2b s 3 (v mod 4) 0)
  | _ => option_map (cons (left * 64 + v)) (a2b s 0 0 0)
  end.
Proof.
  intros H. destruct (b64_val_char v H) as (E & Hne & _). cbn [a2b].
  destruct (N.eqb_spec (b64_char v) 61); [contradiction|]. rewrite E. reflexivity.
Qed.
Lemma list_ind3 {A} (P : list A -> Prop) : P [] -> (forall a, P [a]) -> (forall a b, P [a; b]) ->
  (forall a b c l, P l -> P (a :: b :: c :: l)) -> forall l, P l.
Proof.
  intros H0 H1 H2 H3 l. assert (H : P l /\ (forall a, P (a :: l)) /\ forall a b, P (a :: b :: l)); [|apply H].
  induction l as [|x l (IH1 & IH2 & IH3)]; repeat split; auto.
Qed.
Ltac bounds :=
  repeat match goal with
  | |- context [?a / ?b] => lazymatch goal with H : a / b * b <= a |- _ => fail | _ => 
       pose proof (N.mul_div_le a b ltac:(lia)); pose proof (N.mod_lt a b ltac:(lia)); pose proof (N.div_mod a b ltac:(lia)) end
  end.
Lemma sextets x y z : x < 256 -> y < 256 -> z < 256 ->
  x / 4 < 64 /\ x mod 4 * 16 + y / 16 < 64 /\ y mod 16 * 4 + z / 64 < 64 /\ z mod 64 < 64
  /\ x / 4 * 4 + (x mod 4 * 16 + y / 16) / 16 = x
  /\ (x mod 4 * 16 + y / 16) mod 16 * 16 + (y mod 16 * 4 + z / 64) / 4 = y
  /\ (y mod 16 * 4 + z / 64) mod 4 * 64 + z mod 64 = z.
Proof.
  intros Hx Hy Hz.
  pose proof (N.div_mod x 4 ltac:(lia)) as Dx. pose proof (N.mod_lt x 4 ltac:(lia)) as Mx.
  pose proof (N.div_mod y 16 ltac:(lia)) as Dy. pose proof (N.mod_lt y 16 ltac:(lia)) as My.
  pose proof (N.div_mod z 64 ltac:(lia)) as Dz. pose proof (N.mod_lt z 64 ltac:(lia)) as Mz.
  set (x1 := x / 4) in *. set (x2 := x mod 4) in *. set (y1 := y / 16) in *. set (y2 := y mod 16) in *.
  set (z1 := z / 64) in *. set (z2 := z mod 64) in *. clearbody x1 x2 y1 y2 z1 z2.
  assert (y1 < 16) by lia. assert (z1 < 4) by lia.
  replace ((x2 * 16 + y1) / 16) with x2 by (rewrite N.div_add_l, N.div_small by lia; lia).
  replace ((x2 * 16 + y1) mod 16) with y1 by (rewrite N.add_comm, N.mod_add, N.mod_small by lia; lia).
  replace ((y2 * 4 + z1) / 4) with y2 by (rewrite N.div_add_l, N.div_small by lia; lia).
  replace ((y2 * 4 + z1) mod 4) with z1 by (rewrite N.add_comm, N.mod_add, N.mod_small by lia; lia).
  lia.
Qed.
(** a chunk of 3n bytes, followed by anything *)
Lemma a2b_full b rest n : is_bytes b -> length b = (3 * n)%nat ->
  a2b (b64_chunk b ++ rest) 0 0 0 = option_map (app b) (a2b rest 0 0 0).
Proof.
  intros Hb. revert n. induction b as [|x|x y|x y z b IH] using list_ind3; intros n Hn; cbn [length] in Hn; try lia.
  - cbn. destruct (a2b rest 0 0 0); reflexivity.
  - inversion Hb as [|? ? Hx H1]; subst. inversion H1 as [|? ? Hy H2]; subst. inversion H2 as [|? ? Hz H3]; subst.
    destruct (sextets x y z Hx Hy Hz) as (B1 & B2 & B3 & B4 & E1 & E2 & E3).
    cbn [b64_chunk app]. rewrite a2b_val by exact B1. rewrite a2b_val by exact B2. rewrite a2b_val by exact B3. rewrite a2b_val by exact B4.
    rewrite E1, E2, E3. rewrite (IH H3 (n - 1)%nat) by lia. destruct (a2b rest 0 0 0); reflexivity.
Qed.
(** any chunk at the end *)
Lemma a2b_end b : is_bytes b -> a2b (b64_chunk b) 0 0 0 = Some b.
Proof.
  intros Hb. induction b as [|x|x y|x y z b IH] using list_ind3.
  - reflexivity.
  - inversion Hb as [|? ? Hx H1]; subst. destruct (sextets x 0 0 Hx ltac:(lia) ltac:(lia)) as (B1 & B2 & _ & _ & E1 & _).
    change (0 / 16) with 0 in *. rewrite N.add_0_r in *.
    cbn [b64_chunk]. rewrite a2b_val by exact B1. rewrite a2b_val by exact B2. rewrite E1. reflexivity.
  - inversion Hb as [|? ? Hx H1]; subst. inversion H1 as [|? ? Hy H2]; subst.
    destruct (sextets x y 0 Hx Hy ltac:(lia)) as (B1 & B2 & B3 & _ & E1 & E2 & _).
    change (0 / 64) with 0 in *. rewrite N.add_0_r in *.
    cbn [b64_chunk]. rewrite a2b_val by exact B1. rewrite a2b_val by exact B2. rewrite a2b_val by exact B3. rewrite E1, E2. reflexivity.
  - inversion Hb as [|? ? Hx H1]; subst. inversion H1 as [|? ? Hy H2]; subst. inversion H2 as [|? ? Hz H3]; subst.
    destruct (sextets x y z Hx Hy Hz) as (B1 & B2 & B3 & B4 & E1 & E2 & E3).
    cbn [b64_chunk]. rewrite a2b_val by exact B1. rewrite a2b_val by exact B2. rewrite a2b_val by exact B3. rewrite a2b_val by exact B4.
    rewrite E1, E2, E3. rewrite (IH H3). reflexivity.
Qed.
Lemma chunk_ends b : is_bytes b -> Forall (fun c => is_space c = false /\ c < 128) (b64_chunk b) /\ (b <> [] -> b64_chunk b <> []).
Proof.
  intros Hb. assert (Hv : forall v, v < 64 -> is_space (b64_char v) = false /\ b64_char v < 128).
  { intros v Hv. destruct (b64_val_char v Hv) as (_ & _ & ? & ?). auto. }
  split; [|destruct b as [|? [|? [|? ?]]]; [congruence|discriminate|discriminate|discriminate]].
  induction b as [|x|x y|x y z b IH] using list_ind3.
  - constructor.
  - inversion Hb as [|? ? Hx H1]; subst. destruct (sextets x 0 0 Hx ltac:(lia) ltac:(lia)) as (B1 & B2 & _).
    change (0 / 16) with 0 in *. rewrite N.add_0_r in *. cbn [b64_chunk]. repeat constructor; try apply Hv; auto.
  - inversion Hb as [|? ? Hx H1]; subst. inversion H1 as [|? ? Hy H2]; subst.
    destruct (sextets x y 0 Hx Hy ltac:(lia)) as (B1 & B2 & B3 & _).
    change (0 / 64) with 0 in *. rewrite N.add_0_r in *. cbn [b64_chunk]. repeat constructor; try apply Hv; auto.
  - inversion Hb as [|? ? Hx H1]; subst. inversion H1 as [|? ? Hy H2]; subst. inversion H2 as [|? ? Hz H3]; subst.
    destruct (sextets x y z Hx Hy Hz) as (B1 & B2 & B3 & B4 & _).
    cbn [b64_chunk]. constructor; [apply Hv, B1|]. constructor; [apply Hv, B2|]. constructor; [apply Hv, B3|].
    constructor; [apply Hv, B4|]. apply IH, H3.
Qed.
Lemma strip_trailing s c : s <> [] -> is_space (hd 0 s) = false -> is_space (last s 0) = false -> is_space c = true ->
  strip (s ++ [c]) = s.
Proof.
  intros Hne Hh Hl Hc. unfold strip, strip_by, rstrip_by.
  destruct s as [|x s]; [congruence|]. cbn [hd] in Hh. cbn [app lstrip_by]. rewrite Hh.
  change (x :: s ++ [c]) with ((x :: s) ++ [c]). rewrite rev_app_distr. cbn [rev app lstrip_by]. rewrite Hc.
  change (rev s ++ [x]) with (rev (x :: s)).
  destruct (rev (x :: s)) as [|y r] eqn:E; [apply (f_equal (@rev N)) in E; rewrite rev_involutive in E; discriminate|].
  cbn [lstrip_by]. assert (Hy : y = last (x :: s) 0).
  { apply (f_equal (@rev N)) in E. rewrite rev_involutive in E. rewrite E. cbn [rev]. rewrite last_last. reflexivity. }
  rewrite Hy, Hl, <- Hy, <- E. apply rev_involutive.
Qed.
(** the lines: all but the last have 57 bytes *)
Lemma encode_lines_spec b fuel : is_bytes b -> (length b <= fuel)%nat -> b <> [] ->
  exists t, encode_lines fuel b = t ++ [10] /\ t <> [] /\ is_space (hd 0 t) = false /\ is_space (last t 0) = false
    /\ Forall (fun c => c < 128) t /\ a2b t 0 0 0 = Some b.
Proof.
  revert b. induction fuel as [|fuel IH]; intros b Hb Hl Hne; [destruct b; [congruence|cbn in Hl; lia]|].
  assert (Es : encode_lines (S fuel) b = b64_chunk (firstn 57 b) ++ [10] ++ encode_lines fuel (skipn 57 b))
    by (destruct b; [congruence|reflexivity]).
  rewrite Es.
  assert (Hf : is_bytes (firstn 57 b)) by (rewrite <- (firstn_skipn 57 b) in Hb; apply Forall_app in Hb; tauto).
  assert (Hs : is_bytes (skipn 57 b)) by (rewrite <- (firstn_skipn 57 b) in Hb; apply Forall_app in Hb; tauto).
  assert (Hfn : firstn 57 b <> []) by (destruct b; [congruence|discriminate]).
  destruct (chunk_ends _ Hf) as [Hc Hcn]. specialize (Hcn Hfn).
  assert (Hhd : is_space (hd 0 (b64_chunk (firstn 57 b))) = false).
  { destruct (b64_chunk (firstn 57 b)); [congruence|]. inversion Hc; tauto. }
  destruct (skipn 57 b) as [|y ys] eqn:Ek.
  - exists (b64_chunk (firstn 57 b)).
    assert (En : encode_lines fuel [] = []) by (destruct fuel; reflexivity). rewrite En.
    repeat split; auto.
    + pose proof (app_removelast_last 0 Hcn) as El. rewrite El in Hc. apply Forall_app in Hc. destruct Hc as [_ Hc]. inversion Hc; tauto.
    + eapply Forall_impl; [|exact Hc]. cbn. tauto.
    + rewrite a2b_end by exact Hf. f_equal. rewrite <- (firstn_skipn 57 b) at 2. rewrite Ek, app_nil_r. reflexivity.
  - assert (L57 : length (firstn 57 b) = 57%nat).
    { rewrite firstn_length. assert ((length (skipn 57 b) > 0)%nat) by (rewrite Ek; cbn; lia). rewrite skipn_length in H. lia. }
    destruct (IH (y :: ys)) as (t & Et & Htn & Hth & Htl & Hta & Htd); [exact Hs| |discriminate|].
    { rewrite <- Ek, skipn_length. lia. }
    rewrite Et. exists (b64_chunk (firstn 57 b) ++ [10] ++ t). split; [rewrite <- !app_assoc; reflexivity|].
    repeat split.
    + destruct (b64_chunk (firstn 57 b)); [congruence|discriminate].
    + destruct (b64_chunk (firstn 57 b)); [congruence|exact Hhd].
    + rewrite app_assoc. destruct t as [|t0 t]; [congruence|].
      assert (EL : forall (l l' : list N), l' <> [] -> last (l ++ l') 0 = last l' 0).
      { intros l l' H. induction l as [|q l IHl]; [reflexivity|]. cbn [app]. destruct (l ++ l') eqn:E; [destruct l; [contradiction|discriminate]|]. exact IHl. }
      rewrite EL by discriminate. exact Htl.
    + apply Forall_app. split; [eapply Forall_impl; [|exact Hc]; cbn; tauto|]. constructor; [lia|exact Hta].
    + rewrite (a2b_full _ _ 19) by (try exact Hf; rewrite L57; reflexivity).
      change (a2b ([10] ++ t) 0 0 0) with (a2b t 0 0 0). rewrite Htd. cbn [option_map]. f_equal. rewrite <- Ek. apply firstn_skipn.
Qed.
Theorem b64_roundtrip b : is_bytes b -> b64_to_python (b64_to_string b) = Ok b.
Proof.
  intros Hb. destruct b as [|x b]; [reflexivity|].
  destruct (encode_lines_spec (x :: b) (length (x :: b)) Hb (le_n _) ltac:(discriminate)) as (t & Et & Htn & Hth & Htl & Hta & Htd).
  unfold b64_to_string, encodebytes. rewrite Et, strip_trailing by (try assumption; reflexivity).
  unfold b64_to_python, to_binary.
  assert (E : forallb (fun c => c <? 128) t = true).
  { apply forallb_forall. intros c Hc. eapply Forall_forall in Hta; [|exact Hc]. cbn in Hta. lia. }
  rewrite E. unfold decodebytes. rewrite Htd. reflexivity.
Qed.
Lemma a2b_filter s : forall quad left pads, a2b (filter b64_letter s) quad left pads = a2b s quad left pads.
Proof.
  induction s as [|c s IH]; intros quad left pads; [reflexivity|]. cbn [filter].
  destruct (b64_letter c) eqn:E.
  - cbn [a2b]. rewrite !IH. destruct (b64_val c); [|reflexivity]. rewrite !IH. reflexivity.
  - cbn [a2b]. assert (Hc : c =? 61 = false /\ b64_val c = None).
    { unfold b64_letter, is_letter, is_upper, is_lower in E. unfold b64_val. split; [lia|].
      destruct ((65 <=? c) && (c <=? 90)) eqn:?; [lia|]. destruct ((97 <=? c) && (c <=? 122)) eqn:?; [lia|].
      destruct (is_digit c) eqn:?; [lia|]. destruct (c =? 43) eqn:?; [lia|]. destruct (c =? 47) eqn:?; [lia|]. reflexivity. }
    destruct Hc as [-> ->]. apply IH.
Qed.
Theorem b64_ignores s : Forall (fun c => c < 128) s -> b64_to_python s = b64_to_python (filter b64_letter s).
Proof.
  intros H. unfold b64_to_python, to_binary.
  assert (E : forall t, Forall (fun c => c < 128) t -> forallb (fun c => c <? 128) t = true).
  { intros t Ht. apply forallb_forall. intros c Hc. eapply Forall_forall in Ht; [|exact Hc]. cbn in Ht. lia. }
  rewrite !E; [|apply Forall_forall; intros c Hc; apply filter_In in Hc; eapply Forall_forall in H; [exact H|tauto]|exact H].
  unfold decodebytes. rewrite a2b_filter. reflexivity.
Qed.

(** ** normalizedString, NMTOKEN *)
Lemma replace1_In c x s y : c <> x -> In y (replace1 c [x] s) -> y <> c /\ (In y s \/ y = x).
Proof.
  intros Hcx. unfold replace1. rewrite in_flat_map. intros (z & Hz & Hy).
  destruct (N.eqb_spec z c) as [->|Hn]; destruct Hy as [<-|[]]; auto.
Qed.
Lemma lstrip_In p s c : In c (lstrip_by p s) -> In c s.
Proof. induction s as [|x s IH]; cbn; [auto|]. destruct (p x); auto. Qed.
Lemma strip_In p s c : In c (strip_by p s) -> In c s.
Proof.
  unfold strip_by, rstrip_by. intros H. apply in_rev in H. apply lstrip_In in H. apply in_rev in H. apply lstrip_In in H. exact H.
Qed.
Lemma lstrip_hd p s : match lstrip_by p s with c :: _ => p c = false | [] => True end.
Proof. induction s as [|x s IH]; cbn; [exact I|]. destruct (p x) eqn:E; [exact IH|exact E]. Qed.
Lemma lstrip_suffix p s : exists a, s = a ++ lstrip_by p s.
Proof.
  induction s as [|x s [a IH]]; [exists []; reflexivity|]. cbn. destruct (p x); [exists (x :: a); cbn; rewrite <- IH; reflexivity|exists []; reflexivity].
Qed.
(** first and last character of a stripped text *)
Lemma strip_ends p s : let t := strip_by p s in
  t = [] \/ exists a b, (exists m, t = a :: m) /\ (exists m, t = m ++ [b]) /\ p a = false /\ p b = false.
Proof.
  cbv zeta. unfold strip_by, rstrip_by. set (u := lstrip_by p s). pose proof (lstrip_hd p s) as Hu. fold u in Hu.
  pose proof (lstrip_hd p (rev u)) as Hv. destruct (lstrip_suffix p (rev u)) as [w Hw].
  set (v := lstrip_by p (rev u)) in *. destruct v as [|b v'] eqn:Ev; [left; reflexivity|right].
  assert (Eu : u = (rev v' ++ [b]) ++ rev w).
  { rewrite <- (rev_involutive u), Hw, rev_app_distr. cbn [rev]. reflexivity. }
  cbn [rev]. destruct (rev v' ++ [b]) as [|a m] eqn:E; [destruct (rev v'); discriminate|].
  exists a, b. split; [eauto|]. split; [exists (rev v'); symmetry; exact E|]. split; [|exact Hv].
  rewrite Eu in Hu. cbn in Hu. exact Hu.
Qed.
Lemma strip_fixed p s : (s = [] \/ exists a b, (exists m, s = a :: m) /\ (exists m, s = m ++ [b]) /\ p a = false /\ p b = false) ->
  strip_by p s = s.
Proof.
  intros [->|(a & b & [m ->] & [m' E] & Ha & Hb)]; [reflexivity|]. unfold strip_by, rstrip_by. cbn [lstrip_by]. rewrite Ha, E.
  rewrite rev_app_distr. cbn [rev app lstrip_by]. rewrite Hb. cbn [rev]. rewrite rev_involutive. reflexivity.
Qed.
Lemma replace1_absent c y s : ~ In c s -> replace1 c y s = s.
Proof.
  unfold replace1. induction s as [|x s IH]; cbn [flat_map]; [reflexivity|]. intros H.
  destruct (N.eqb_spec x c) as [->|]; [exfalso; apply H; left; reflexivity|]. rewrite IH; [reflexivity|]. intros Hin; apply H; right; exact Hin.
Qed.
Theorem normalized_spec v :
  let r := norm_to_python v in
  (forall c, In c r -> c <> 13 /\ c <> 10 /\ c <> 9)
  /\ (r = [] \/ exists a b, (exists m, r = a :: m) /\ (exists m, r = m ++ [b]) /\ is_space a = false /\ is_space b = false)
  /\ norm_to_python r = r.
Proof.
  cbv zeta. set (r := norm_to_python v).
  assert (H1 : forall c, In c r -> c <> 13 /\ c <> 10 /\ c <> 9).
  { intros c Hc. unfold r, norm_to_python in Hc. apply strip_In in Hc.
    apply replace1_In in Hc; [|discriminate]. destruct Hc as [Ha [Hc| ->]]; [|repeat split; discriminate].
    apply replace1_In in Hc; [|discriminate]. destruct Hc as [Hb [Hc| ->]]; [|repeat split; discriminate].
    apply replace1_In in Hc; [|discriminate]. destruct Hc as [Hd _]. auto. }
  assert (H2 : r = [] \/ exists a b, (exists m, r = a :: m) /\ (exists m, r = m ++ [b]) /\ is_space a = false /\ is_space b = false)
    by apply strip_ends.
  split; [exact H1|]. split; [exact H2|].
  unfold norm_to_python. rewrite (replace1_absent 13), (replace1_absent 10), (replace1_absent 9) by (intros Hin; apply H1 in Hin; lia).
  apply strip_fixed, H2.
Qed.
(** characters other than CR, LF, TAB and the stripped white space are kept *)
Theorem normalized_keeps v : (v = [] \/ exists a b, (exists m, v = a :: m) /\ (exists m, v = m ++ [b]) /\ is_space a = false /\ is_space b = false) ->
  norm_to_python v = map (fun c => if (c =? 13) || (c =? 10) || (c =? 9) then 32 else c) v.
Proof.
  intros H. assert (E : replace1 9 [32] (replace1 10 [32] (replace1 13 [32] v)) = map (fun c => if (c =? 13) || (c =? 10) || (c =? 9) then 32 else c) v).
  { clear. unfold replace1. induction v as [|x v IH]; [reflexivity|]. cbn [flat_map map]. rewrite !flat_map_app, IH.
    destruct (N.eqb_spec x 13) as [->|]; [reflexivity|]. cbn [flat_map app].
    destruct (N.eqb_spec x 10) as [->|]; [reflexivity|]. cbn [flat_map app orb].
    destruct (N.eqb_spec x 9) as [->|]; [reflexivity|]. cbn [app]. reflexivity. }
  unfold norm_to_python. rewrite E. apply strip_fixed.
  destruct H as [->|(a & b & [m ->] & [m' Em] & Ha & Hb)]; [left; reflexivity|right].
  exists a, b. split.
  - cbn [map]. eexists. f_equal. destruct ((a =? 13) || (a =? 10) || (a =? 9)) eqn:Ec; [|reflexivity].
    exfalso. unfold is_space in Ha. lia.
  - split; [|auto]. rewrite Em, map_app. cbn [map]. eexists. f_equal. f_equal.
    destruct ((b =? 13) || (b =? 10) || (b =? 9)) eqn:Ec; [|reflexivity]. exfalso. unfold is_space in Hb. lia.
Qed.
Theorem nmtoken_spec word v :
  (word_text word v -> nmtoken_to_python None word v = Ok v)
  /\ (~ word_text word v -> nmtoken_to_python None word v = Err ValueError).
Proof.
  assert (H : forallb (fun c => word c || char_mem c (lit ".:-")) v = true <-> word_text word v).
  { rewrite forallb_forall. unfold word_text. split; intros H c Hc; specialize (H c Hc).
    - apply orb_true_iff in H. destruct H as [H|H]; [auto|]. apply char_mem_In in H. cbn in H. intuition.
    - apply orb_true_iff. destruct H as [H|H]; [auto|]. right. apply char_mem_In. cbn. intuition. }
  unfold nmtoken_to_python. cbn [string_to_python bind].
  destruct (forallb _ v) eqn:E; split; intros Hw; try reflexivity.
  - exfalso. apply Hw, H, eq_refl.
  - apply H in Hw. congruence.
Qed.
