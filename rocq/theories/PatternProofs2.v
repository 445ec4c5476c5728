(** C19: reading through a pattern. *)
From Verif Require Import PyStr Dec Numeric NumericSpec DecProofs DecProofs2 GroupProofs PatternProofs.
From Coq Require Import ZifyBool ZifyN ZifyNat.

Lemma replace_self c s : replace [c] [c] s = s.
Proof.
  rewrite replace_one. unfold replace1. induction s as [|x s IH]; [reflexivity|]. cbn [flat_map]. rewrite IH.
  destruct (N.eqb_spec x c) as [->|]; reflexivity.
Qed.

Section U.
Variable udigit : N -> option N.

Theorem read_pattern (p : pystr) P neg plus (gs : list pystr) (point : bool) fp :
  p <> [] -> number_pattern p = Ok P ->
  Forall (fun g => Forall (fun c => 48 <= c <= 57) g) gs -> Forall (fun g => g <> []) gs -> gs <> [] ->
  numeral_ok (concat gs) point fp -> fits (val_digits (concat gs ++ fp)) ->
  (In 44 p \/ exists g, gs = [g]) ->
  decimal_to_python udigit (pat_fmt p) (grouped_numeral neg plus gs point fp) =
  if is_valid P (grouped_numeral neg plus gs point fp)
  then Ok (Fin neg (val_digits (concat gs ++ fp)) (- Z.of_nat (length fp)))
  else Err ValueError.
Proof.
  intros Hp EP Hgs Hn Hne Hok Hf Hcomma. destruct Hok as (Hd & Hz & Hpt). pose proof Hd as Hd'.
  apply Forall_app in Hd'. destruct Hd' as [Hcd Hfp].
  set (t := grouped_numeral neg plus gs point fp).
  assert (Et : t = sgn neg plus ++ seg false [44] gs (if point then [46] else []) fp).
  { unfold t, grouped_numeral, seg. fold (sgn neg plus). destruct point; [reflexivity|]. rewrite (Hpt eq_refl). reflexivity. }
  assert (Hin : forall x, In x t -> 48 <= x <= 57 \/ x = 43 \/ x = 45 \/ x = 46 \/ (x = 44 /\ ~ exists g, gs = [g])).
  { intros x Hx. rewrite Et in Hx. apply in_app_or in Hx. destruct Hx as [Hx|Hx].
    - destruct neg, plus; cbn in Hx; repeat destruct Hx as [<-|Hx]; try contradiction; auto.
    - apply seg_In in Hx; try assumption. destruct Hx as [?|[?|[[[<-|[]] ?]|Hx]]]; auto 6.
      destruct point; [destruct Hx as [<-|[]]; auto|contradiction]. }
  assert (Habs : forall x, ~ (48 <= x <= 57) -> x <> 43 -> x <> 45 -> x <> 46 -> x <> 44 -> ~ In x t).
  { intros x H1 H2 H3 H4 H5 Hx. apply Hin in Hx. tauto. }
  unfold decimal_to_python. unfold has_e. rewrite !char_mem_absent by (apply Habs; lia). cbn [orb].
  cbn [pat_fmt nf_group nf_decimal nf_pattern]. change (or_str None (lit ",")) with (lit ",").
  assert (Hiso : iso t = true).
  { rewrite Et. assert (I0 : iso (seg false [44] gs (if point then [46] else []) fp) = true).
    { apply iso_seg; try assumption; try exact I. destruct point; exact I. }
    assert (Hh : exists x xs, seg false [44] gs (if point then [46] else []) fp = x :: xs /\ is_digit x = true).
    { destruct gs as [|[|x xs] gs']; [congruence|inversion Hn; congruence|].
      pose proof (Forall_inv Hgs) as H1. pose proof (Forall_inv H1) as H2. cbv beta in H2.
      unfold seg. destruct gs'; cbn [sign_str join app]; eexists _, _; (split; [reflexivity|unfold is_digit; lia]). }
    destruct Hh as (x & xs & Eh & Hx). rewrite Eh in *.
    destruct neg, plus; try exact I0; cbn [sgn]; change (lit "-") with [45]; change (lit "+") with [43];
    cbn [app]; match goal with |- iso (?a :: _) = _ => change ((is_digit a || is_digit x) && iso (x :: xs) = true) end;
    rewrite Hx, orb_true_r, I0; reflexivity. }
  change (lit "," ++ lit ",") with [44; 44]. rewrite iso_contains by (try reflexivity; exact Hiso).
  assert (Htp : truthy_str (Some p) = Some p) by (destruct p; [congruence|reflexivity]).
  unfold pat_has. rewrite !Htp. rewrite EP. cbn [bind].
  assert (Er1 : forall b : bool, or_str (if b then Some (lit ",") else None) (lit ",") = [44]) by (intros []; reflexivity).
  assert (Er2 : forall b : bool, or_str (if b then Some (lit ".") else None) (lit ".") = [46]) by (intros []; reflexivity).
  rewrite Er1, Er2. change (lit ",") with [44] at 1. change (lit ".") with [46] at 1. rewrite !replace_self.
  destruct (is_valid P t) eqn:EV; cbn [negb]; [|reflexivity].
  assert (Hns : forall w ws, (65 <= w) -> forall pre, str_eqb t (pre ++ w :: ws) = false).
  { intros w ws Hw pre. apply str_eqb_neq. intros E. assert (Hx : In w t) by (rewrite E; apply in_app_iff; right; left; reflexivity).
    apply Hin in Hx. lia. }
  change (lit "INF") with ([] ++ 73 :: lit "NF"). change (lit "-INF") with (lit "-" ++ 73 :: lit "NF").
  change (lit "NaN") with ([] ++ 78 :: lit "aN"). rewrite !Hns by lia.
  assert (Ev : (match truthy_str (if char_mem 44 p then Some (lit ",") else None) with Some g => replace g [] t | None => t end)
     = numeral neg plus (concat gs) point fp).
  { unfold t, grouped_numeral, numeral. fold (sgn neg plus).
    destruct (char_mem 44 p) eqn:Ep; cbn [truthy_str].
    - change (lit ",") with [44]. cbv iota. rewrite replace_one. unfold replace1. rewrite !flat_map_app.
      change (fun x => if x =? 44 then [] else [x]) with (rep (Some 44) []).
      assert (Hfx : fixes (rep (Some 44) [])).
      { apply fixes_rep. intros x Ex. injection Ex as <-. unfold sep_char. lia. }
      rewrite fix_join by assumption. cbn [flat_map]. rewrite rep_in. cbn [app]. rewrite join_nil. f_equal; [|f_equal].
      + destruct neg, plus; reflexivity.
      + destruct point; [|reflexivity]. rewrite flat_map_app, (fix_digs _ fp) by assumption. reflexivity.
    - destruct Hcomma as [Hc|[g ->]]; [apply char_mem_In in Hc; congruence|]. cbn [join concat]. rewrite app_nil_r. reflexivity. }
  change (list N) with pystr in *. rewrite Ev.
  assert (Hok : numeral_ok (concat gs) point fp) by (repeat split; assumption).
  pose proof (numeral_chars neg plus (concat gs) point fp Hok) as HC.
  assert (Ed : forall v : pystr, match truthy_str (if char_mem 46 p then Some (lit ".") else None)
     with Some d => if str_eqb d (lit ".") then v else replace d (lit ".") v | None => v end = v).
  { intros v. destruct (char_mem 46 p); reflexivity. }
  rewrite Ed. rewrite !char_mem_absent by (eapply numchars_absent; [exact HC|reflexivity]). cbn [fst snd].
  rewrite dec_of_numeral by exact Hok. cbn [dec_scale]. rewrite Z.sub_0_r, (round_fits udigit _ _ Hf). reflexivity.
Qed.
End U.
