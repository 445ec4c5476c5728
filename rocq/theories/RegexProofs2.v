(** The parser: a pattern in a group means the same as by itself. *)
From Verif Require Import PyStr Dec Basic Regex RegexSpec RegexProofs.

Section Suffix.
Variable u : pystr.
Notation z := (41 :: u).
Lemma p_set_app : forall n first s l t, p_set n first s = POk (l, t) -> forall m, (n <= m)%nat -> p_set m first (s ++ z) = POk (l, t ++ z).
Proof.
  induction n as [|n IH]; intros first s l t H m L; [discriminate H|]. destruct m as [|m]; [lia|]. cbn [p_set] in *. destruct s as [|c s]; [discriminate H|]. cbn [app].
  destruct ((c =? 93) && negb first); [injection H as <- <-; reflexivity|].
  assert (X : forall (x : pres (citem * pystr)) f f' , (exists i s0, x = POk (i, s0) /\ f (i, s0) = POk (l, t)) -> (forall i s0, x = POk (i, s0) -> f (i, s0) = POk (l, t) -> f' i s0 = POk (l, t ++ z)) -> exists i s0, x = POk (i, s0) /\ f' i s0 = POk (l, t ++ z)).
  { intros x f f' (i & s0 & E & F) K. exists i, s0. split; [exact E|]. apply K; assumption. }
  clear X.
  assert (Cont : forall a s1, match s1 with
        | [] => PBad
        | d :: s' => if d =? 45 then match s' with
            | [] => PBad
            | e :: s'' => if e =? 93 then POk ([a; CRange 45 45], s'') else
                do (b, s3) <- (if e =? 92 then match s'' with [] => PBad | f :: s4 => do i <- escape_item f; POk (i, s4) end else POk (CRange e e, s''));
                match a, b with
                | CRange lo _, CRange hi _ => if hi <? lo then PBad else do (l, t) <- p_set n false s3; POk (CRange lo hi :: l, t)
                | _, _ => PBad
                end
            end
          else do (l, t) <- p_set n false s1; POk (a :: l, t)
        end = POk (l, t) ->
     match s1 ++ z with
        | [] => PBad
        | d :: s' => if d =? 45 then match s' with
            | [] => PBad
            | e :: s'' => if e =? 93 then POk ([a; CRange 45 45], s'') else
                do (b, s3) <- (if e =? 92 then match s'' with [] => PBad | f :: s4 => do i <- escape_item f; POk (i, s4) end else POk (CRange e e, s''));
                match a, b with
                | CRange lo _, CRange hi _ => if hi <? lo then PBad else do (l, t) <- p_set m false s3; POk (CRange lo hi :: l, t)
                | _, _ => PBad
                end
            end
          else do (l, t) <- p_set m false (s1 ++ z); POk (a :: l, t)
        end = POk (l, t ++ z)).
  { intros a s1 K. destruct s1 as [|d s']; [discriminate K|]. cbn [app]. destruct (d =? 45).
    - destruct s' as [|e s'']; [discriminate K|]. cbn [app]. destruct (e =? 93); [injection K as <- <-; reflexivity|]. destruct (e =? 92).
      + destruct s'' as [|f s4]; [discriminate K|]. cbn [app]. destruct (escape_item f) as [i| |]; [|discriminate K|discriminate K]. cbn [pbind] in *. destruct a as [lo x|]; [|discriminate K]. destruct i as [hi y|]; [|discriminate K].
        destruct (hi <? lo); [discriminate K|]. destruct (p_set n false s4) as [[l' t']| |] eqn:E; [|discriminate K|discriminate K]. cbn [pbind] in K. injection K as <- <-. rewrite (IH _ _ _ _ E m) by lia. reflexivity.
      + cbn [pbind] in *. destruct a as [lo x|]; [|discriminate K]. destruct (e <? lo); [discriminate K|]. destruct (p_set n false s'') as [[l' t']| |] eqn:E; [|discriminate K|discriminate K]. cbn [pbind] in K. injection K as <- <-. rewrite (IH _ _ _ _ E m) by lia. reflexivity.
    - destruct (p_set n false (d :: s')) as [[l' t']| |] eqn:E; [|discriminate K|discriminate K]. cbn [pbind] in K. injection K as <- <-. change (d :: s' ++ z) with ((d :: s') ++ z). rewrite (IH _ _ _ _ E m) by lia. reflexivity. }
  destruct (c =? 92).
  - destruct s as [|e s]; [discriminate H|]. cbn [app]. destruct (escape_item e) as [i| |]; [|discriminate H|discriminate H]. cbn [pbind] in *. apply Cont. exact H.
  - cbn [pbind] in *. apply Cont. exact H.
Qed.
Lemma span_app : forall s, span_digits (s ++ z) = (fst (span_digits s), snd (span_digits s) ++ z).
Proof. induction s as [|c s IH]; [reflexivity|]. cbn [app span_digits]. destruct (is_digit c); [|reflexivity]. rewrite IH. reflexivity. Qed.
Lemma p_count_app s : p_count (s ++ z) = option_map (fun x => (fst x, snd x ++ z)) (p_count s).
Proof.
  unfold p_count. destruct s as [|c s]; [reflexivity|].
  assert (E : startswith (lit "}") ((c :: s) ++ z) = startswith (lit "}") (c :: s)) by reflexivity. rewrite E. destruct (startswith (lit "}") (c :: s)); [reflexivity|]. rewrite span_app.
  destruct (span_digits (c :: s)) as [l s1]. cbn [fst snd]. destruct s1 as [|d s2]; [reflexivity|]. cbn [app]. destruct (d =? 44).
  - rewrite span_app. destruct (span_digits s2) as [h s3]. cbn [fst snd]. destruct s3 as [|e s4]; [reflexivity|]. cbn [app]. destruct (e =? 125); reflexivity.
  - destruct (d =? 125); [|reflexivity]. destruct l; reflexivity.
Qed.
Lemma p_quant_app s : p_quant (s ++ z) = option_map (fun x => (fst x, snd x ++ z)) (p_quant s).
Proof.
  destruct s as [|c s]; [reflexivity|]. cbn [app p_quant]. destruct (c =? 42); [reflexivity|]. destruct (c =? 43); [reflexivity|]. destruct (c =? 63); [reflexivity|]. destruct (c =? 123); [apply p_count_app|reflexivity].
Qed.
Lemma p_repeat_app r b s x t : p_repeat r b s = POk (x, t) -> p_repeat r b (s ++ z) = POk (x, t ++ z).
Proof.
  unfold p_repeat. rewrite p_quant_app. destruct (p_quant s) as [[[lo hi] t']|]; cbn [option_map fst snd]; [|intros H; injection H as <- <-; reflexivity].
  destruct (match hi with Some h => (h <? lo)%nat | None => false end); [discriminate|]. destruct (negb b); [discriminate|]. destruct t' as [|c t']; cbn [app].
  - intros H. injection H as <- <-. reflexivity.
  - destruct (c =? 43); [discriminate|]. destruct (c =? 63); intros H; injection H as <- <-; reflexivity.
Qed.
Lemma p_single_app g g' s x b t : p_single g s = POk (x, b, t) -> p_single g' (s ++ z) = POk (x, b, t ++ z).
Proof.
  destruct s as [|c s]; [discriminate|]. cbn [app p_single]. destruct (c =? 46); [intros H; injection H as <- <- <-; reflexivity|]. destruct (c =? 94); [intros H; injection H as <- <- <-; reflexivity|]. destruct (c =? 36); [intros H; injection H as <- <- <-; reflexivity|].
  destruct (c =? 91).
  { destruct s as [|d s2]; [discriminate|]. cbn [app]. destruct (d =? 94).
    - destruct (p_set (length (d :: s2)) true s2) as [[l t']| |] eqn:E; cbn [pbind]; try discriminate. intros H. injection H as <- <- <-. rewrite (p_set_app _ _ _ _ _ E); [reflexivity|]. cbn [length]. rewrite app_length. lia.
    - destruct (p_set (length (d :: s2)) true (d :: s2)) as [[l t']| |] eqn:E; cbn [pbind]; try discriminate. intros H. injection H as <- <- <-. change (d :: s2 ++ z) with ((d :: s2) ++ z). rewrite (p_set_app _ _ _ _ _ E); [reflexivity|]. rewrite app_length. lia. }
  destruct (c =? 92).
  { destruct s as [|e s2]; [discriminate|]. cbn [app]. destruct (is_digit e).
    - destruct (e =? 48); [discriminate|]. destruct s2 as [|d s3].
      + destruct (existsb (N.eqb (e - 48)) (snd g)); [discriminate|]. destruct (fst g <? e - 48); discriminate.
      + destruct (is_digit d); [discriminate|]. destruct (existsb (N.eqb (e - 48)) (snd g)); [discriminate|]. destruct (fst g <? e - 48); discriminate.
    - destruct (escape_item e) as [i| |]; cbn [pbind]; try discriminate. intros H. injection H as <- <- <-. reflexivity. }
  destruct ((c =? 42) || (c =? 43) || (c =? 63)); [discriminate|]. destruct (c =? 123).
  - rewrite p_count_app. destruct (p_count s) as [[? ?]|]; cbn [option_map]; [discriminate|]. intros H. injection H as <- <- <-. reflexivity.
  - intros H. injection H as <- <- <-. reflexivity.
Qed.
Lemma p_empty n g x t g' : p_alt n g [] = POk (x, t, g') -> t = [].
Proof. destruct n as [|[|n]]; try discriminate. cbn. intros H. injection H as <- <- <-. reflexivity. Qed.
Lemma parse_app : forall n,
  (forall g s x t g1, p_alt n g s = POk (x, t, g1) -> forall m g2, (n <= m)%nat -> exists g3, p_alt m g2 (s ++ z) = POk (x, t ++ z, g3)) /\
  (forall g s x t g1, p_seq n g s = POk (x, t, g1) -> forall m g2, (n <= m)%nat -> exists g3, p_seq m g2 (s ++ z) = POk (x, t ++ z, g3)) /\
  (forall g s x t g1, p_group n g s = POk (x, t, g1) -> forall m g2, (n <= m)%nat -> exists g3, p_group m g2 (s ++ z) = POk (x, t ++ z, g3)).
Proof.
  induction n as [|n (IHa & IHs & IHg)]; [repeat split; intros; discriminate|]. repeat split; intros g s x t g1 H m g2 L; (destruct m as [|m]; [lia|]).
  - cbn [p_alt] in *. destruct (p_seq n g s) as [[[a s1] g']| |] eqn:E; cbn [pbind] in H; try discriminate H. destruct (IHs _ _ _ _ _ E m g2) as (g3 & E'); [lia|]. rewrite E'. cbn [pbind]. destruct s1 as [|c s1]; cbn [app].
    + injection H as <- <- <-. exists g3. reflexivity.
    + destruct (c =? 124).
      * destruct (p_alt n g' s1) as [[[b t'] g'']| |] eqn:E2; cbn [pbind] in H; try discriminate H. injection H as <- <- <-. destruct (IHa _ _ _ _ _ E2 m g3) as (g4 & E3); [lia|]. rewrite E3. cbn [pbind]. exists g4. reflexivity.
      * injection H as <- <- <-. exists g3. reflexivity.
  - cbn [p_seq] in *. destruct s as [|c s]; cbn [app].
    + injection H as <- <- <-. exists g2. reflexivity.
    + destruct ((c =? 124) || (c =? 41)); [injection H as <- <- <-; exists g2; reflexivity|].
      assert (X : exists a s1 g', (if c =? 40 then p_group n g s else do (a, rep, t) <- p_single g (c :: s); do (a, t) <- p_repeat a rep t; POk (a, t, g)) = POk (a, s1, g') /\ (do (b, t, g) <- p_seq n g' s1; POk (RSeq a b, t, g)) = POk (x, t, g1)).
      { match type of H with pbind ?y _ = _ => destruct y as [[[a s1] g']| |] eqn:E end; cbn [pbind] in H; try discriminate H. exists a, s1, g'. auto. }
      destruct X as (a & s1 & g' & E & F). destruct (p_seq n g' s1) as [[[b t'] g'']| |] eqn:E2; cbn [pbind] in F; try discriminate F. injection F as <- <- <-.
      assert (Y : exists g3, (if c =? 40 then p_group m g2 (s ++ z) else do (a, rep, t) <- p_single g2 (c :: s ++ z); do (a, t) <- p_repeat a rep t; POk (a, t, g2)) = POk (a, s1 ++ z, g3)).
      { destruct (c =? 40); [exact (IHg _ _ _ _ _ E m g2 ltac:(lia))|]. destruct (p_single g (c :: s)) as [[[y rep] t1]| |] eqn:E3; cbn [pbind] in E; try discriminate E. destruct (p_repeat y rep t1) as [[y' t2]| |] eqn:E4; cbn [pbind] in E; try discriminate E. injection E as <- <- <-.
        change (c :: s ++ z) with ((c :: s) ++ z). rewrite (p_single_app _ g2 _ _ _ _ E3). cbn [pbind]. rewrite (p_repeat_app _ _ _ _ _ E4). cbn [pbind]. exists g2. reflexivity. }
      destruct Y as (g3 & Y). rewrite Y. cbn [pbind]. destruct (IHs _ _ _ _ _ E2 m g3) as (g4 & Z4); [lia|]. rewrite Z4. cbn [pbind]. exists g4. reflexivity.
  - cbn [p_group] in *. destruct s as [|c s].
    { cbn [startswith lit] in H. change (startswith (lit "?") []) with false in H. cbn [andb] in H. destruct (p_alt n (fst g + 1, fst g + 1 :: snd g) []) as [[[a t'] g']| |] eqn:E; cbn [pbind] in H; try discriminate H. apply p_empty in E. subst t'. discriminate H. }
    assert (E1 : startswith (lit "?") ((c :: s) ++ z) = startswith (lit "?") (c :: s)) by reflexivity. rewrite E1. destruct (startswith (lit "?") (c :: s)) eqn:Op.
    + cbn [andb] in *. assert (E2 : startswith (lit "?:") (c :: s) = true -> exists s', c :: s = lit "?:" ++ s') by (intros K; apply startswith_spec in K; destruct K as (s' & K); exists s'; exact K).
      destruct (startswith (lit "?:") (c :: s)) eqn:Op2; [|discriminate H]. destruct E2 as (s' & E2); [reflexivity|]. rewrite E2 in *. cbn [negb] in *. 
      assert (E3 : startswith (lit "?:") ((lit "?:" ++ s') ++ z) = true) by (apply startswith_spec; exists (s' ++ z); rewrite <- app_assoc; reflexivity). rewrite E3. cbn [negb]. change (skipn 2 (lit "?:" ++ s')) with s' in H. change (skipn 2 ((lit "?:" ++ s') ++ z)) with (s' ++ z).
      destruct (p_alt n g s') as [[[a t'] g']| |] eqn:E; cbn [pbind] in H; try discriminate H. destruct (IHa _ _ _ _ _ E m g2) as (g3 & E'); [lia|]. rewrite E'. cbn [pbind]. destruct t' as [|d t']; [discriminate H|]. cbn [app]. destruct (d =? 41); [|discriminate H].
      destruct (p_repeat a true t') as [[y t2]| |] eqn:E4; cbn [pbind] in H; try discriminate H. injection H as <- <- <-. rewrite (p_repeat_app _ _ _ _ _ E4). cbn [pbind]. eexists. reflexivity.
    + cbn [andb] in *. destruct (p_alt n (fst g + 1, fst g + 1 :: snd g) (c :: s)) as [[[a t'] g']| |] eqn:E; cbn [pbind] in H; try discriminate H. destruct (IHa _ _ _ _ _ E m (fst g2 + 1, fst g2 + 1 :: snd g2)) as (g3 & E'); [lia|]. rewrite E'. cbn [pbind]. destruct t' as [|d t']; [discriminate H|]. cbn [app]. destruct (d =? 41); [|discriminate H].
      destruct (p_repeat a true t') as [[y t2]| |] eqn:E4; cbn [pbind] in H; try discriminate H. injection H as <- <- <-. rewrite (p_repeat_app _ _ _ _ _ E4). cbn [pbind]. eexists. reflexivity.
Qed.
End Suffix.

Lemma compile_start f r : re_compile f = POk r -> startswith (lit "?") f = false.
Proof.
  intros H. destruct (startswith (lit "?") f) eqn:E; [|reflexivity]. apply startswith_spec in E. destruct E as (t & ->). exfalso. unfold re_compile in H. replace (3 * length (lit "?" ++ t) + 3)%nat with (S (S (3 * length t + 4))) in H by (cbn [length lit app]; cbn; lia). discriminate H.
Qed.
Theorem compile_wrap : forall f r, re_compile f = POk r -> re_compile (lit "(" ++ f ++ lit ")$") = POk (RSeq r (RSeq REol REps)).
Proof.
  intros f r H. pose proof (compile_start f r H) as Q. unfold re_compile in H. destruct (p_alt (3 * length f + 3) (0, []) f) as [[[x t] g]| |] eqn:E; cbn [pbind] in H; try discriminate H. destruct t as [|? ?]; [|discriminate H]. injection H as ->.
  unfold re_compile. assert (Le : length (lit "(" ++ f ++ lit ")$") = (length f + 3)%nat) by (rewrite !app_length; cbn; lia). rewrite Le. replace (3 * (length f + 3) + 3)%nat with (S (S (S (3 * length f + 9)))) by lia.
  destruct (proj1 (parse_app (lit "$") (3 * length f + 3)) _ _ _ _ _ E (3 * length f + 9)%nat (1, [1]) ltac:(lia)) as (g3 & P). cbn [app] in P.
  assert (Q' : startswith (lit "?") (f ++ lit ")$") = false) by (destruct f; [reflexivity|exact Q]).
  assert (G : p_group (S (3 * length f + 9)) (0, []) (f ++ lit ")$") = POk (r, lit "$", (fst g3, []))).
  { cbn [p_group]. rewrite Q'. cbn [andb fst snd]. change (0 + 1) with 1. change (lit ")$") with (41 :: lit "$"). change (41 :: lit "$") with (41 :: lit "$") in P. rewrite P. reflexivity. }
  change (lit "(" ++ f ++ lit ")$") with (40 :: f ++ lit ")$"). cbn [p_alt]. 
  assert (X : p_seq (S (S (3 * length f + 9))) (0, []) (40 :: f ++ lit ")$") = POk (RSeq r (RSeq REol REps), [], (fst g3, []))).
  { change (p_seq (S (S (3 * length f + 9))) (0, []) (40 :: f ++ lit ")$")) with (do (a, s, g) <- p_group (S (3 * length f + 9)) (0, []) (f ++ lit ")$"); do (b, t, g) <- p_seq (S (3 * length f + 9)) g s; POk (RSeq a b, t, g)).
    rewrite G. cbn [pbind]. replace (3 * length f + 9)%nat with (S (3 * length f + 8)) by lia. reflexivity. }
  rewrite X. reflexivity.
Qed.
