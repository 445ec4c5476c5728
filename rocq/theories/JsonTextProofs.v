(** C58: strings and numbers of JSON. *)
From Verif Require Import PyStr Dec DecProofs Dsv Json JsonText JsonTextSpec.
From Coq Require Import ZifyBool ZifyN ZifyNat.

Lemma hexval_iff c v : hexval c = Some v <-> hex c v.
Proof.
  unfold hexval, hex. destruct ((48 <=? c) && (c <=? 57)) eqn:E1; [split; [intros H; injection H as <-; lia|intros H; f_equal; lia]|].
  destruct ((97 <=? c) && (c <=? 102)) eqn:E2; [split; [intros H; injection H as <-; lia|intros H; f_equal; lia]|].
  destruct ((65 <=? c) && (c <=? 70)) eqn:E3; [split; [intros H; injection H as <-; lia|intros H; f_equal; lia]|]. split; [discriminate|lia].
Qed.
Lemma hex_lt c v : hex c v -> v < 16. Proof. unfold hex. lia. Qed.
Lemma hex4_iff a b c d u : hex4 a b c d = Some u <-> u_text [92; 117; a; b; c; d] u.
Proof.
  unfold hex4, u_text. split.
  - destruct (hexval a) as [x|] eqn:Ea; [|discriminate]. destruct (hexval b) as [y|] eqn:Eb; [|discriminate]. destruct (hexval c) as [z|] eqn:Ec; [|discriminate]. destruct (hexval d) as [w|] eqn:Ed; [|discriminate].
    intros H. assert (Q : 4096 * x + 256 * y + 16 * z + w = u) by congruence. exists a, b, c, d, x, y, z, w. apply hexval_iff in Ea, Eb, Ec, Ed. repeat (split; [assumption || reflexivity|]). lia.
  - intros (a' & b' & c' & d' & x & y & z & w & E & Ha & Hb & Hc & Hd & ->). injection E as <- <- <- <-. apply hexval_iff in Ha, Hb, Hc, Hd. rewrite Ha, Hb, Hc, Hd. f_equal. lia.
Qed.
Lemma u_text_shape t u : u_text t u -> exists a b c d, t = [92; 117; a; b; c; d] /\ hex4 a b c d = Some u.
Proof. intros H. pose proof H as (a & b & c & d & x & y & z & w & -> & _). exists a, b, c, d. split; [reflexivity|]. apply hex4_iff, H. Qed.
Lemma high_iff u : is_high u = true <-> high u. Proof. unfold is_high, high. lia. Qed.
Lemma low_iff u : is_low u = true <-> low u. Proof. unfold is_low, low. lia. Qed.
Lemma unescape_iff e c : unescape e = Some c <-> simple_escape e c.
Proof.
  unfold unescape, simple_escape. split.
  - destruct (N.eqb_spec e 34) as [->|]; [intros H; injection H as <-; left; reflexivity|]. destruct (N.eqb_spec e 92) as [->|]; [intros H; injection H as <-; right; left; reflexivity|]. destruct (N.eqb_spec e 47) as [->|]; [intros H; injection H as <-; right; right; left; reflexivity|]. cbn [orb].
    destruct (N.eqb_spec e 98) as [->|]; [intros H; injection H as <-; cbn; auto 10|]. destruct (N.eqb_spec e 102) as [->|]; [intros H; injection H as <-; cbn; auto 10|]. destruct (N.eqb_spec e 110) as [->|]; [intros H; injection H as <-; cbn; auto 10|].
    destruct (N.eqb_spec e 114) as [->|]; [intros H; injection H as <-; cbn; auto 10|]. destruct (N.eqb_spec e 116) as [->|]; [intros H; injection H as <-; cbn; auto 10|]. discriminate.
  - intros H. cbn [In] in H. repeat (destruct H as [H|H]; [injection H as <- <-; reflexivity|]). contradiction.
Qed.
Lemma escape_not_u e c : simple_escape e c -> e <> 117.
Proof. intros H ->. cbn in H. repeat (destruct H as [H|H]; [discriminate H|]). contradiction. Qed.
(** what the reader does at a backslash and u *)
Definition u_step (r0 : pystr) : option (pystr * pystr) :=
  match r0 with
  | a :: b :: c' :: d :: r1 =>
      match hex4 a b c' d with
      | None => None
      | Some u =>
          if is_high u then
            match r1 with
            | k1 :: k2 :: a2 :: b2 :: c2 :: d2 :: r2 =>
                if (k1 =? 92) && (k2 =? 117) then
                  match hex4 a2 b2 c2 d2 with
                  | None => None
                  | Some v => if is_low v then consr (65536 + (u - 55296) * 1024 + (v - 56320)) (scan_str r2) else consr u (scan_str r1)
                  end
                else consr u (scan_str r1)
            | _ => consr u (scan_str r1)
            end
          else consr u (scan_str r1)
      end
  | _ => None
  end.
Lemma scan_str_u r : scan_str (92 :: 117 :: r) = u_step r. Proof. reflexivity. Qed.
Lemma scan_str_plain c r : 32 <= c -> c <> 34 -> c <> 92 -> scan_str (c :: r) = consr c (scan_str r).
Proof. intros A B C. cbn [scan_str]. replace (c =? 34) with false by lia. replace (c <? 32) with false by lia. replace (c =? 92) with false by lia. reflexivity. Qed.
Lemma scan_str_esc e r : e <> 117 -> scan_str (92 :: e :: r) = match unescape e with Some x => consr x (scan_str r) | None => None end.
Proof. intros A. cbn [scan_str]. change (92 =? 34) with false. change (92 <? 32) with false. change (92 =? 92) with true. cbn [negb]. replace (e =? 117) with false by lia. reflexivity. Qed.
(** a text with a bad escape is not read *)
Lemma scan_bad_u a b c d r : hex4 a b c d = None -> scan_str (92 :: 117 :: a :: b :: c :: d :: r) = None.
Proof. intros H. rewrite scan_str_u. unfold u_step. rewrite H. reflexivity. Qed.
Theorem scan_str_complete t s : str_text t s -> forall rest, scan_str (t ++ 34 :: rest) = Some (s, rest).
Proof.
  induction 1 as [|c t s A B C Ht IH|e c t s He Ht IH|t1 t2 u v t s H1 Hh H2 Hl Ht IH|t1 u t s H1 Hn Ht IH]; intros rest.
  - reflexivity.
  - cbn [app]. rewrite scan_str_plain by assumption. rewrite IH. reflexivity.
  - cbn [app]. rewrite scan_str_esc by (eapply escape_not_u; exact He). apply unescape_iff in He. rewrite He, IH. reflexivity.
  - apply u_text_shape in H1. destruct H1 as (a & b & c & d & -> & E1). apply u_text_shape in H2. destruct H2 as (a2 & b2 & c2 & d2 & -> & E2). cbn [app]. rewrite scan_str_u. unfold u_step. rewrite E1. apply high_iff in Hh. rewrite Hh. change ((92 =? 92) && (117 =? 117)) with true. cbv iota. rewrite E2. apply low_iff in Hl. rewrite Hl, IH. reflexivity.
  - apply u_text_shape in H1. destruct H1 as (a & b & c & d & -> & E1). cbn [app]. rewrite scan_str_u. unfold u_step. rewrite E1. destruct (is_high u) eqn:Eh; [|rewrite IH; reflexivity]. specialize (IH rest).
    destruct (t ++ 34 :: rest) as [|k1 [|k2 [|a2 [|b2 [|c2 [|d2 r2]]]]]] eqn:Et; try (rewrite IH; reflexivity).
    destruct ((k1 =? 92) && (k2 =? 117)) eqn:Ek; [|rewrite IH; reflexivity]. apply andb_prop in Ek. destruct Ek as [K1 K2]. apply N.eqb_eq in K1, K2. subst k1 k2.
    destruct (hex4 a2 b2 c2 d2) as [v|] eqn:E2; [|rewrite (scan_bad_u _ _ _ _ _ E2) in IH; discriminate IH]. destruct (is_low v) eqn:El; [|rewrite IH; reflexivity]. exfalso. apply Hn. split; [apply high_iff, Eh|].
    destruct t as [|x1 [|x2 t]]; [discriminate Et| |].
    + injection Et as Q1 Q2 Q3. subst x1. discriminate Q2.
    + injection Et as Q1 Q2 Q3. subst x1 x2. inversion Ht as [|? ? ? ? ? N92|? ? ? ? He|t3 t4 ? ? ? ? H3 ? H4|t3 ? ? ? H3]; subst; [congruence| | |].
      * exfalso. eapply escape_not_u; [exact He|reflexivity].
      * apply u_text_shape in H3. destruct H3 as (a3 & b3 & c3 & d3 & -> & E3). cbn [app] in *. match goal with H : _ = 92 :: 117 :: t |- _ => injection H as <- end. cbn [app] in Q3. injection Q3 as -> -> -> -> Q4.
        exists [92; 117; a2; b2; c2; d2], v, (t4 ++ t0). split; [reflexivity|]. split; [apply hex4_iff, E2|apply low_iff, El].
      * apply u_text_shape in H3. destruct H3 as (a3 & b3 & c3 & d3 & -> & E3). cbn [app] in *. match goal with H : _ = 92 :: 117 :: t |- _ => injection H as <- end. cbn [app] in Q3. injection Q3 as -> -> -> -> Q4.
        eexists [92; 117; a2; b2; c2; d2], v, _. split; [reflexivity|]. split; [apply hex4_iff, E2|apply low_iff, El].
Qed.
Lemma consr_inv c x s rest : consr c x = Some (s, rest) -> exists s', x = Some (s', rest) /\ s = c :: s'.
Proof. destruct x as [[a b]|]; [|discriminate]. cbn [consr]. intros H. injection H as <- <-. exists a. split; reflexivity. Qed.
Theorem scan_str_sound : forall n x s rest, (length x <= n)%nat -> scan_str x = Some (s, rest) -> exists t, x = t ++ 34 :: rest /\ str_text t s.
Proof.
  induction n as [|n IH]; intros x s rest Hn H; [destruct x; [discriminate H|cbn in Hn; lia]|]. destruct x as [|c r]; [discriminate H|]. cbn [length] in Hn.
  destruct (N.eqb_spec c 34) as [->|N34]; [cbn in H; injection H as <- <-; exists []; split; [reflexivity|constructor]|].
  destruct (c <? 32) eqn:E32; [cbn [scan_str] in H; rewrite E32 in H; replace (c =? 34) with false in H by lia; discriminate H|].
  destruct (N.eqb_spec c 92) as [->|N92].
  2:{ rewrite scan_str_plain in H by lia. apply consr_inv in H. destruct H as (s' & H & ->). apply IH in H; [|lia]. destruct H as (t & -> & Ht). exists (c :: t). split; [reflexivity|]. constructor; auto; lia. }
  destruct r as [|e r]; [discriminate H|]. cbn [length] in Hn. destruct (N.eqb_spec e 117) as [->|N117].
  2:{ rewrite scan_str_esc in H by exact N117. destruct (unescape e) as [y|] eqn:Ee; [|discriminate H]. apply consr_inv in H. destruct H as (s' & H & ->). apply IH in H; [|lia]. destruct H as (t & -> & Ht). exists (92 :: e :: t). split; [reflexivity|]. constructor; [apply unescape_iff, Ee|exact Ht]. }
  rewrite scan_str_u in H. unfold u_step in H. destruct r as [|a [|b [|c [|d r1]]]]; try discriminate H. cbn [length] in Hn. destruct (hex4 a b c d) as [u|] eqn:E4; [|discriminate H].
  assert (Simple : consr u (scan_str r1) = Some (s, rest) -> (high u -> forall a2 b2 c2 d2 r2 v, r1 = 92 :: 117 :: a2 :: b2 :: c2 :: d2 :: r2 -> hex4 a2 b2 c2 d2 = Some v -> low v -> False) -> exists t, 92 :: 117 :: a :: b :: c :: d :: r1 = t ++ 34 :: rest /\ str_text t s).
  { intros H1 H2. apply consr_inv in H1. destruct H1 as (s' & H1 & ->). apply IH in H1; [|lia]. destruct H1 as (t & -> & Ht). exists ([92; 117; a; b; c; d] ++ t). split; [reflexivity|]. apply s_u; [apply hex4_iff, E4| |exact Ht].
    intros [Hh (t2 & v & t' & -> & Hu & Hl)]. apply u_text_shape in Hu. destruct Hu as (a2 & b2 & c2 & d2 & -> & E2). eapply (H2 Hh); [reflexivity|exact E2|exact Hl]. }
  destruct (is_high u) eqn:Eh; [|apply Simple; [exact H|intros Hh; apply high_iff in Hh; congruence]].
  destruct r1 as [|k1 [|k2 [|a2 [|b2 [|c2 [|d2 r2]]]]]]; try (apply Simple; [exact H|intros _ ? ? ? ? ? ? Q; discriminate Q]).
  destruct ((k1 =? 92) && (k2 =? 117)) eqn:Ek; [|apply Simple; [exact H|intros _ ? ? ? ? ? ? Q; injection Q as -> -> ? ? ? ? ?; discriminate Ek]]. apply andb_prop in Ek. destruct Ek as [K1 K2]. apply N.eqb_eq in K1, K2. subst k1 k2.
  destruct (hex4 a2 b2 c2 d2) as [v|] eqn:E2; [|discriminate H]. destruct (is_low v) eqn:El; [|apply Simple; [exact H|intros _ ? ? ? ? ? v' Q E2' Hl; injection Q as -> -> -> -> ->; rewrite E2 in E2'; injection E2' as ->; apply low_iff in Hl; congruence]].
  apply consr_inv in H. destruct H as (s' & H & ->). cbn [length] in Hn. apply IH in H; [|lia]. destruct H as (t & -> & Ht). exists ([92; 117; a; b; c; d] ++ [92; 117; a2; b2; c2; d2] ++ t). split; [reflexivity|].
  apply s_pair; [apply hex4_iff, E4|apply high_iff, Eh|apply hex4_iff, E2|apply low_iff, El|exact Ht].
Qed.

(** ** Numbers *)
Lemma is_digit_iff c : is_digit c = true <-> 48 <= c <= 57. Proof. unfold is_digit. lia. Qed.
Definition no_digit (s : pystr) : Prop := match s with [] => True | c :: _ => is_digit c = false end.
Lemma span_spec s : exists a b, span_digits s = (a, b) /\ s = a ++ b /\ Forall (fun c => 48 <= c <= 57) a /\ no_digit b.
Proof.
  induction s as [|c s (a & b & E & -> & F & N0)]; [exists [], []; repeat split; constructor|]. cbn [span_digits]. destruct (is_digit c) eqn:Ec.
  - exists (c :: a), b. rewrite E. repeat split; [constructor; [apply is_digit_iff, Ec|exact F]|exact N0].
  - exists [], (c :: a ++ b). repeat split; [constructor|exact Ec].
Qed.
Lemma span_complete a b : Forall (fun c => 48 <= c <= 57) a -> no_digit b -> span_digits (a ++ b) = (a, b).
Proof.
  intros F N0. induction F as [|c a Hc F IH]; cbn [app].
  - destruct b as [|d b]; [reflexivity|]. cbn [span_digits]. cbn in N0. rewrite N0. reflexivity.
  - cbn [span_digits]. rewrite (proj2 (is_digit_iff c) Hc), IH. reflexivity.
Qed.
Lemma value_digits ds : Forall (fun c => 48 <= c <= 57) ds -> Z.of_N (val_digits ds) = decimal_value ds.
Proof.
  intros F. unfold val_digits, decimal_value. change 0%Z with (Z.of_N 0). generalize 0 as n. induction F as [|c ds Hc F IH]; intros n; [reflexivity|]. cbn [fold_left]. rewrite IH. f_equal. lia.
Qed.
(** what may come after a number: white space, a comma, a closing bracket or nothing *)
Definition ends (s : pystr) : Prop := match s with [] => True | c :: _ => c = 32 \/ c = 9 \/ c = 10 \/ c = 13 \/ c = 44 \/ c = 93 \/ c = 125 end.
Lemma ends_no_digit s : ends s -> no_digit s. Proof. destruct s; [trivial|]. cbn. unfold is_digit. lia. Qed.
Lemma scan_exp_ends s : ends s -> scan_exp s = ([], s).
Proof. destruct s as [|c s]; [reflexivity|]. intros H. cbn in H. unfold scan_exp. replace ((c =? 101) || (c =? 69)) with false by lia. reflexivity. Qed.
Lemma scan_frac_none s : hd 0 s <> 46 -> scan_frac s = ([], s).
Proof. destruct s as [|c s]; [reflexivity|]. cbn [hd]. intros H. unfold scan_frac. replace (c =? 46) with false by lia. reflexivity. Qed.
Lemma digits_ne ds : digits ds -> exists c r, ds = c :: r /\ 48 <= c <= 57.
Proof. intros [H F]. destruct ds as [|c r]; [congruence|]. exists c, r. split; [reflexivity|]. inversion F; assumption. Qed.
Lemma scan_exp_complete ep rest : exp_part ep -> ends rest -> scan_exp (ep ++ rest) = (ep, rest).
Proof.
  intros [->|(e & sg & ds & He & Hs & Hd & ->)] Hr; [apply scan_exp_ends, Hr|]. rewrite <- !app_assoc.
  assert (X : forall c, c = 101 \/ c = 69 -> scan_exp ([c] ++ sg ++ ds ++ rest) = ([c] ++ sg ++ ds, rest)).
  { intros c Hc. cbn [app]. unfold scan_exp. replace ((c =? 101) || (c =? 69)) with true by lia.
    assert (Y : (match sg ++ ds ++ rest with d :: t => if (d =? 43) || (d =? 45) then ([d], t) else ([], sg ++ ds ++ rest) | [] => ([], sg ++ ds ++ rest) end) = (sg, ds ++ rest)).
    { destruct Hs as [->|[->| ->]]; [|reflexivity|reflexivity]. cbn [app]. destruct (digits_ne ds Hd) as (x & r & -> & Hx). cbn [app]. replace ((x =? 43) || (x =? 45)) with false by lia. reflexivity. }
    rewrite Y. cbn [fst snd]. rewrite span_complete by (apply Hd || apply ends_no_digit, Hr). destruct (digits_ne ds Hd) as (x & r & -> & Hx). reflexivity. }
  destruct He as [-> | ->]; apply X; auto.
Qed.
Lemma exp_head ep rest : exp_part ep -> ends rest -> hd 0 (ep ++ rest) <> 46 /\ no_digit (ep ++ rest).
Proof.
  intros [->|(e & sg & ds & He & Hs & Hd & ->)] Hr; [split; [destruct rest as [|c r]; cbn; [discriminate|cbn in Hr; lia]|apply ends_no_digit, Hr]|].
  destruct He as [-> | ->]; cbn; split; try discriminate; reflexivity.
Qed.
Lemma scan_frac_complete fp rest : frac_part fp -> hd 0 rest <> 46 -> no_digit rest -> scan_frac (fp ++ rest) = (fp, rest).
Proof.
  intros [->|(ds & Hd & ->)] H1 H2; [apply scan_frac_none, H1|]. rewrite <- app_assoc. cbn [lit app]. unfold scan_frac. change (46 =? 46) with true. cbv iota. rewrite span_complete by (apply Hd || exact H2). destruct (digits_ne ds Hd) as (x & r & -> & Hx). reflexivity.
Qed.
Lemma scan_int_complete ds rest : natural ds -> no_digit rest -> scan_int (ds ++ rest) = Some (ds, rest).
Proof.
  intros [Hd Hz] Hr. destruct (digits_ne ds Hd) as (x & r & E & Hx). destruct (N.eq_dec x 48) as [->|Nx].
  - rewrite (Hz ltac:(rewrite E; reflexivity)). reflexivity.
  - rewrite E. cbn [app]. unfold scan_int. replace (x =? 48) with false by lia. rewrite (proj2 (is_digit_iff x) Hx). f_equal. change (x :: r ++ rest) with ((x :: r) ++ rest). apply span_complete; [rewrite <- E; apply Hd|exact Hr].
Qed.
Lemma scan_sign_complete neg ds rest : digits ds -> scan_sign (minus neg ++ ds ++ rest) = (minus neg, ds ++ rest).
Proof.
  intros Hd. destruct neg; [reflexivity|]. cbn [minus app]. destruct (digits_ne ds Hd) as (x & r & -> & Hx). cbn [app]. unfold scan_sign. replace (x =? 45) with false by lia. reflexivity.
Qed.
Section Num.
Variable fr : pystr -> pystr.
Lemma scan_number_parts neg ds fp ep rest : natural ds -> frac_part fp -> exp_part ep -> ends rest ->
  scan_number fr (minus neg ++ ds ++ fp ++ ep ++ rest) =
  match fp ++ ep with
  | [] => Some (JInt (if neg then - decimal_value ds else decimal_value ds)%Z, rest)
  | _ => Some (JFloat (fr (minus neg ++ ds ++ fp ++ ep)), rest)
  end.
Proof.
  intros Hn Hf He Hr. pose proof Hn as [Hd _]. destruct (exp_head ep rest He Hr) as [X1 X2]. unfold scan_number. rewrite scan_sign_complete by exact Hd. cbn [fst snd].
  assert (Y : no_digit (fp ++ ep ++ rest)) by (destruct Hf as [->|(d & Hd' & ->)]; [exact X2|reflexivity]).
  rewrite scan_int_complete by assumption. rewrite scan_frac_complete by assumption. cbn [fst snd]. rewrite scan_exp_complete by assumption. cbn [fst snd].
  destruct (fp ++ ep) as [|c fe] eqn:E; [|reflexivity]. rewrite value_digits by apply Hd. destruct neg; reflexivity.
Qed.
Lemma scan_int_complete_number neg ds rest : natural ds -> ends rest -> scan_number fr (minus neg ++ ds ++ rest) = Some (JInt (if neg then - decimal_value ds else decimal_value ds)%Z, rest).
Proof. intros Hn Hr. exact (scan_number_parts neg ds [] [] rest Hn (or_introl eq_refl) (or_introl eq_refl) Hr). Qed.
Lemma scan_float_complete t rest : float_text t -> ends rest -> scan_number fr (t ++ rest) = Some (JFloat (fr t), rest).
Proof.
  intros (neg & ds & fp & ep & Hn & Hf & He & Hne & ->) Hr. rewrite <- !app_assoc. rewrite scan_number_parts by assumption. destruct (fp ++ ep); [congruence|reflexivity].
Qed.
Lemma scan_sign_spec s : exists neg r, scan_sign s = (minus neg, r) /\ s = minus neg ++ r.
Proof. destruct s as [|c r]; [exists false, []; split; reflexivity|]. unfold scan_sign. destruct (N.eqb_spec c 45) as [->|]; [exists true, r|exists false, (c :: r)]; split; reflexivity. Qed.
Lemma scan_int_spec s ds r : scan_int s = Some (ds, r) -> s = ds ++ r /\ natural ds.
Proof.
  destruct s as [|c s]; [discriminate|]. unfold scan_int. destruct (N.eqb_spec c 48) as [->|N48].
  - intros H. injection H as <- <-. split; [reflexivity|]. split; [split; [discriminate|constructor; [lia|constructor]]|reflexivity].
  - destruct (is_digit c) eqn:Ec; [|discriminate]. intros H. destruct (span_spec (c :: s)) as (a & b & E & E2 & F & N0). rewrite E in H. injection H as <- <-. split; [exact E2|].
    destruct a as [|x a]; [cbn in E2; rewrite <- E2 in N0; cbn in N0; congruence|]. injection E2 as <- E2. split; [split; [discriminate|exact F]|]. cbn [hd]. congruence.
Qed.
Lemma scan_frac_spec s : exists fp r, scan_frac s = (fp, r) /\ s = fp ++ r /\ frac_part fp.
Proof.
  destruct s as [|c s]; [exists [], []; repeat split; left; reflexivity|]. unfold scan_frac. destruct (N.eqb_spec c 46) as [->|]; [|exists [], (c :: s); repeat split; left; reflexivity].
  destruct (span_spec s) as (a & b & E & E2 & F & N0). rewrite E. destruct a as [|x a]; [exists [], (46 :: s); repeat split; left; reflexivity|].
  exists (46 :: x :: a), b. split; [reflexivity|]. split; [rewrite E2; reflexivity|]. right. exists (x :: a). split; [split; [discriminate|exact F]|reflexivity].
Qed.
Lemma scan_exp_spec s : exists ep r, scan_exp s = (ep, r) /\ s = ep ++ r /\ exp_part ep.
Proof.
  destruct s as [|c s]; [exists [], []; repeat split; left; reflexivity|]. unfold scan_exp. destruct ((c =? 101) || (c =? 69)) eqn:Ec; [|exists [], (c :: s); repeat split; left; reflexivity].
  set (sgr := match s with d :: t => if (d =? 43) || (d =? 45) then ([d], t) else ([], s) | [] => ([], s) end).
  assert (S0 : exists sg t, sgr = (sg, t) /\ s = sg ++ t /\ (sg = [] \/ sg = lit "+" \/ sg = lit "-")).
  { unfold sgr. destruct s as [|d t]; [exists [], []; auto|]. destruct (N.eqb_spec d 43) as [->|]; [exists [43], t; auto|]. destruct (N.eqb_spec d 45) as [->|]; [exists [45], t; auto|]. exists [], (d :: t); auto. }
  destruct S0 as (sg & t & -> & -> & Hs). cbn [fst snd]. destruct (span_spec t) as (a & b & E & E2 & F & N0). rewrite E. destruct a as [|x a]; [exists [], (c :: sg ++ t); repeat split; left; reflexivity|].
  exists (c :: sg ++ x :: a), b. split; [reflexivity|]. split; [rewrite E2; cbn [app]; rewrite <- app_assoc; reflexivity|]. right. exists [c], sg, (x :: a). split; [|split; [exact Hs|split; [split; [discriminate|exact F]|reflexivity]]].
  apply orb_prop in Ec. destruct Ec as [Ec|Ec]; apply N.eqb_eq in Ec; rewrite Ec; auto.
Qed.
Lemma scan_number_sound s j rest : scan_number fr s = Some (j, rest) -> exists t, s = t ++ rest /\ text fr t j.
Proof.
  unfold scan_number. destruct (scan_sign_spec s) as (neg & r & -> & ->). cbn [fst snd]. destruct (scan_int r) as [[ds r1]|] eqn:Ei; [|discriminate]. apply scan_int_spec in Ei. destruct Ei as [-> Hn].
  destruct (scan_frac_spec r1) as (fp & r2 & -> & -> & Hf). cbn [fst snd]. destruct (scan_exp_spec r2) as (ep & r3 & -> & -> & He). cbn [fst snd].
  destruct (fp ++ ep) as [|c fe] eqn:E; intros H; injection H as <- <-.
  - apply app_eq_nil in E. destruct E as [-> ->]. cbn [app]. exists (minus neg ++ ds). split; [rewrite <- app_assoc; reflexivity|]. pose proof (t_int fr neg ds Hn) as T. rewrite value_digits by apply Hn. destruct neg; exact T.
  - exists (minus neg ++ ds ++ fp ++ ep). split; [rewrite <- !app_assoc; reflexivity|]. rewrite <- E. apply t_float. exists neg, ds, fp, ep. repeat split; try assumption; try apply Hn. rewrite E. discriminate.
Qed.
End Num.

(** ** Dictionaries of pairs *)
From Verif Require Import DsvProofs4.
Lemma firsts_snoc ks k : firsts (ks ++ [k]) = if str_mem k ks then firsts ks else firsts ks ++ [k].
Proof.
  induction ks as [|x ks IH]; [reflexivity|]. cbn [app firsts]. rewrite IH. replace (str_mem k (x :: ks)) with (str_eqb k x || str_mem k ks) by reflexivity. destruct (str_mem k ks) eqn:Em.
  - rewrite orb_true_r. reflexivity.
  - rewrite orb_false_r, filter_app. cbn [filter]. destruct (str_eqb k x); cbn [negb]; [rewrite app_nil_r; reflexivity|reflexivity].
Qed.
Lemma keys_set {A} (g : list (pystr * A)) q (v : A) : map fst (dset str_eqb g q v) = if str_mem q (map fst g) then map fst g else map fst g ++ [q].
Proof.
  induction g as [|[k x] g IH]; [reflexivity|]. cbn [dset map fst]. replace (str_mem q (k :: map fst g)) with (str_eqb q k || str_mem q (map fst g)) by reflexivity. destruct (str_eqb q k) eqn:E; cbn [orb map fst]; [apply str_eqb_eq in E; subst; reflexivity|].
  rewrite IH. destruct (str_mem q (map fst g)); reflexivity.
Qed.
Lemma firsts_In ks k : In k (firsts ks) <-> In k ks.
Proof.
  induction ks as [|x ks IH]; [reflexivity|]. cbn [firsts In]. rewrite filter_In, IH. split; [intros [H|[H _]]; auto|]. intros [H|H]; [auto|]. destruct (str_eqb k x) eqn:E; [apply str_eqb_eq in E; subst; auto|right; split; [exact H|reflexivity]].
Qed.
Lemma firsts_NoDup ks : NoDup (firsts ks).
Proof.
  induction ks as [|x ks IH]; [constructor|]. cbn [firsts]. constructor; [|apply NoDup_filter, IH]. rewrite filter_In. intros [_ H]. rewrite str_eqb_refl in H. discriminate H.
Qed.
Lemma keys_all {A} (ms : list (pystr * A)) : map fst (dset_all str_eqb [] ms) = firsts (map fst ms).
Proof.
  induction ms as [|[k v] ms IH] using rev_ind; [reflexivity|]. unfold dset_all in *. rewrite fold_left_app. cbn [fold_left fst snd]. rewrite keys_set, IH, map_app. cbn [map fst]. rewrite firsts_snoc.
  destruct (str_mem k (firsts (map fst ms))) eqn:E1, (str_mem k (map fst ms)) eqn:E2; try reflexivity.
  - apply str_mem_In in E1. apply (proj1 (firsts_In _ _)) in E1. apply (proj2 (str_mem_In _ _)) in E1. congruence.
  - apply str_mem_In in E2. apply (proj2 (firsts_In _ _)) in E2. apply (proj2 (str_mem_In _ _)) in E2. congruence.
Qed.
Lemma dget_In_unique {A} (d : list (pystr * A)) k v : NoDup (map fst d) -> (In (k, v) d <-> dget str_eqb d k = Some v).
Proof.
  induction d as [|[k0 v0] d IH]; cbn [map fst In dget]; intros Hn; [split; [contradiction|discriminate]|]. inversion Hn as [|? ? N1 N2]; subst. destruct (str_eqb k k0) eqn:E.
  - apply str_eqb_eq in E. subst k0. split; [intros [H|H]; [congruence|]|intros H; left; congruence]. exfalso. apply N1. apply in_map_iff. exists (k, v). split; [reflexivity|exact H].
  - rewrite <- (IH N2). split; [intros [H|H]; [injection H as -> ->; rewrite str_eqb_refl in E; discriminate E|exact H]|auto].
Qed.
Lemma dget_rev {A} (ms : list (pystr * A)) k v : dget str_eqb (rev ms) k = Some v <-> exists a b, ms = a ++ (k, v) :: b /\ ~ In k (map fst b).
Proof.
  induction ms as [|[k0 v0] ms IH] using rev_ind; [split; [discriminate|intros (a & b & H & _); destruct a; discriminate H]|]. rewrite rev_app_distr. cbn [rev app dget]. destruct (str_eqb k k0) eqn:E.
  - apply str_eqb_eq in E. subst k0. split.
    + intros H. injection H as ->. exists ms, []. split; [reflexivity|intros []].
    + intros (a & b & H & Hn). destruct b as [|[k1 v1] b] using rev_ind; [apply app_inj_tail in H; destruct H as [_ H]; congruence|]. clear IHb. exfalso. rewrite app_comm_cons, app_assoc in H. apply app_inj_tail in H. destruct H as [_ H]. injection H as -> ->. apply Hn. rewrite map_app, in_app_iff. right; left; reflexivity.
  - rewrite IH. assert (Nk : k <> k0) by (intros ->; rewrite str_eqb_refl in E; discriminate E). split.
    + intros (a & b & -> & Hn). exists a, (b ++ [(k0, v0)]). split; [rewrite <- app_assoc; reflexivity|]. rewrite map_app, in_app_iff. intros [H|[H|[]]]; [exact (Hn H)|]. cbn in H. congruence.
    + intros (a & b & H & Hn). destruct b as [|[k1 v1] b] using rev_ind; [apply app_inj_tail in H; destruct H as [_ H]; congruence|]. clear IHb. rewrite app_comm_cons, app_assoc in H. apply app_inj_tail in H. destruct H as [-> _]. exists a, b. split; [reflexivity|]. intros H. apply Hn. rewrite map_app, in_app_iff. left; exact H.
Qed.
Lemma last_wins_all ms : last_wins ms (dset_all str_eqb [] ms).
Proof.
  split; [apply keys_all|]. intros k v H. apply dget_In_unique in H; [|rewrite keys_all; apply firsts_NoDup]. rewrite (dget_dset_all str_eqb str_eqb_eq) in H. apply dget_rev. destruct (dget str_eqb (rev ms) k); [exact H|discriminate H].
Qed.
Lemma last_wins_unique ms kvs kvs' : last_wins ms kvs -> last_wins ms kvs' -> kvs = kvs'.
Proof.
  intros [K1 V1] [K2 V2]. assert (V1' : forall k v, In (k, v) kvs -> dget str_eqb (rev ms) k = Some v) by (intros k v H; apply dget_rev, V1, H). assert (V2' : forall k v, In (k, v) kvs' -> dget str_eqb (rev ms) k = Some v) by (intros k v H; apply dget_rev, V2, H).
  rewrite <- K2 in K1. clear K2 V1 V2. revert kvs' K1 V2'. induction kvs as [|[k v] kvs IH]; intros [|[k' v'] kvs'] K V2; try discriminate K; [reflexivity|]. cbn in K. injection K as -> K.
  pose proof (V1' k' v (or_introl eq_refl)) as E1. pose proof (V2 k' v' (or_introl eq_refl)) as E2. f_equal; [congruence|]. apply IH; [intros; apply V1'; right; assumption|exact K|intros; apply V2; right; assumption].
Qed.
