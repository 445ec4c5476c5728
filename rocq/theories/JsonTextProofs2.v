(** C58: reading JSON decides the grammar. *)
From Verif Require Import PyStr Dec DecProofs Dsv Json JsonText JsonTextSpec JsonTextProofs.
From Coq Require Import ZifyBool ZifyN ZifyNat.

Scheme text_min := Minimality for text Sort Prop
with items_min := Minimality for items Sort Prop
with pairs_min := Minimality for pairs Sort Prop.
Combined Scheme text_ind' from text_min, items_min, pairs_min.

Lemma ws_iff c : is_ws c = true <-> c = 32 \/ c = 9 \/ c = 10 \/ c = 13. Proof. unfold is_ws. lia. Qed.
Lemma skip_ws_app w s : ws w -> skip_ws (w ++ s) = skip_ws s.
Proof. intros H. induction H as [|c w Hc H IH]; [reflexivity|]. cbn [app skip_ws]. rewrite (proj2 (ws_iff c) Hc). exact IH. Qed.
Lemma skip_ws_id c s : is_ws c = false -> skip_ws (c :: s) = c :: s.
Proof. intros H. cbn [skip_ws]. rewrite H. reflexivity. Qed.
Lemma skip_ws_split s : exists w, ws w /\ s = w ++ skip_ws s.
Proof.
  induction s as [|c s (w & Hw & E)]; [exists []; split; [constructor|reflexivity]|]. cbn [skip_ws]. destruct (is_ws c) eqn:Ec.
  - exists (c :: w). split; [constructor; [apply ws_iff, Ec|exact Hw]|]. cbn [app]. rewrite <- E. reflexivity.
  - exists []. split; [constructor|reflexivity].
Qed.
Lemma ends_ws w s : ws w -> ends s -> ends (w ++ s).
Proof. intros [|c w' Hc H] Hs; [exact Hs|]. cbn. tauto. Qed.
Ltac lits := try change (lit "[") with [91] in *; try change (lit "]") with [93] in *; try change (lit "{") with [123] in *; try change (lit "}") with [125] in *; try change (lit ",") with [44] in *; try change (lit ":") with [58] in *.
Section Read.
Variable fr : pystr -> pystr.
(** the first character of a value *)
Definition starts (t : pystr) : Prop := match t with [] => False | c :: _ => is_ws c = false /\ c <> 93 /\ c <> 125 /\ c <> 44 /\ c <> 65279 end.
Lemma digits_starts ds x : digits ds -> starts (ds ++ x).
Proof. intros H. destruct (digits_ne ds H) as (c & r & -> & Hc). cbn. unfold is_ws. lia. Qed.
Lemma float_starts t : float_text t -> starts t.
Proof. intros (neg & ds & fp & ep & Hn & _ & _ & _ & ->). destruct neg; [cbn; repeat split; discriminate|]. cbn [minus app]. apply digits_starts, Hn. Qed.
Lemma text_starts t j : text fr t j -> starts t.
Proof.
  intros H. destruct H; try (cbn; repeat split; discriminate).
  - destruct neg; [cbn; repeat split; discriminate|]. cbn [minus app]. rewrite <- (app_nil_r ds). apply digits_starts. apply H.
  - apply float_starts, H.
Qed.
Lemma starts_skip t s : starts t -> skip_ws (t ++ s) = t ++ s.
Proof. destruct t as [|c t]; [contradiction|]. intros [H _]. apply skip_ws_id, H. Qed.

(** the reader at a number *)
Lemma scan_at_number n c r x : scan_number fr (c :: r) = Some x -> (48 <= c <= 57 \/ c = 45) -> scan fr (S n) (c :: r) = Some x.
Proof.
  intros H Hc. cbn [scan]. replace (c =? 34) with false by lia. replace (c =? 123) with false by lia. replace (c =? 91) with false by lia.
  assert (P : forall a p, a <> c -> strip_prefix (a :: p) (c :: r) = None).
  { intros a p Ha. unfold strip_prefix. cbn [startswith]. replace (a =? c) with false by lia. reflexivity. }
  change (lit "null") with (110 :: lit "ull"). change (lit "true") with (116 :: lit "rue"). change (lit "false") with (102 :: lit "alse"). rewrite !P by lia. rewrite H. reflexivity.
Qed.
Lemma scan_at_digits n neg ds x r : digits ds -> scan_number fr (minus neg ++ ds ++ r) = Some x -> scan fr (S n) (minus neg ++ ds ++ r) = Some x.
Proof.
  intros Hd H. destruct (digits_ne ds Hd) as (c & d & -> & Hc). destruct neg; cbn [minus lit app] in *; apply scan_at_number; auto.
Qed.
Lemma elements_S n s : elements fr (S n) s =
  match scan fr n s with
  | None => None
  | Some (x, r) => match skip_ws r with
                   | c :: t => if c =? 93 then Some ([x], t) else if c =? 44 then match elements fr n (skip_ws t) with Some (l, t') => Some (x :: l, t') | None => None end else None
                   | [] => None
                   end
  end.
Proof. reflexivity. Qed.
Lemma scan_S n s : scan fr (S n) s =
      match s with
      | [] => None
      | c :: r =>
          if c =? 34 then match scan_str r with Some (x, t) => Some (JStr x, t) | None => None end
          else if c =? 123 then
            match skip_ws r with
            | d :: t => if d =? 125 then Some (JObj [], t)
                        else match members fr n (d :: t) with Some (kvs, t') => Some (JObj (dset_all str_eqb [] kvs), t') | None => None end
            | [] => None
            end
          else if c =? 91 then
            match skip_ws r with
            | d :: t => if d =? 93 then Some (JList [], t)
                        else match elements fr n (d :: t) with Some (l, t') => Some (JList l, t') | None => None end
            | [] => None
            end
          else match strip_prefix (lit "null") s with Some t => Some (JNull, t) | None =>
               match strip_prefix (lit "true") s with Some t => Some (JBool true, t) | None =>
               match strip_prefix (lit "false") s with Some t => Some (JBool false, t) | None =>
               match scan_number fr s with Some x => Some x | None =>
               match strip_prefix (lit "NaN") s with Some t => Some (JFloat (lit "nan"), t) | None =>
               match strip_prefix (lit "Infinity") s with Some t => Some (JFloat (lit "inf"), t) | None =>
               match strip_prefix (lit "-Infinity") s with Some t => Some (JFloat (lit "-inf"), t) | None => None
               end end end end end end end
      end.
Proof. reflexivity. Qed.
Lemma members_S n s : members fr (S n) s =
      match s with
      | q :: r =>
          if negb (q =? 34) then None
          else match scan_str r with
               | None => None
               | Some (k, r1) =>
                   match skip_ws r1 with
                   | c :: r2 =>
                       if negb (c =? 58) then None
                       else match scan fr n (skip_ws r2) with
                            | None => None
                            | Some (v, r3) =>
                                match skip_ws r3 with
                                | d :: t => if d =? 125 then Some ([(k, v)], t)
                                            else if d =? 44 then match members fr n (skip_ws t) with Some (l, t') => Some ((k, v) :: l, t') | None => None end
                                            else None
                                | [] => None
                                end
                            end
                   | [] => None
                   end
               end
      | [] => None
      end.
Proof. reflexivity. Qed.
Theorem scan_complete :
  (forall t j, text fr t j -> forall n rest, ends rest -> (2 * length t + 1 <= n)%nat -> scan fr n (t ++ rest) = Some (j, rest))
  /\ (forall t l, items fr t l -> forall n rest, (2 * length t + 2 <= n)%nat -> elements fr n (skip_ws (t ++ 93 :: rest)) = Some (l, rest))
  /\ (forall t l, pairs fr t l -> forall n rest, (2 * length t + 2 <= n)%nat -> members fr n (skip_ws (t ++ 125 :: rest)) = Some (l, rest)).
Proof.
  apply text_ind'.
  - intros n rest _ Hn. destruct n; [lia|]. reflexivity.
  - intros n rest _ Hn. destruct n; [lia|]. reflexivity.
  - intros n rest _ Hn. destruct n; [lia|]. reflexivity.
  - intros neg ds Hd n rest Hr Hn. destruct n; [lia|]. rewrite <- app_assoc. apply scan_at_digits; [apply Hd|]. apply scan_int_complete_number; assumption.
  - intros t Ht n rest Hr Hn. destruct n; [lia|]. pose proof (scan_float_complete fr t rest Ht Hr) as E. destruct Ht as (neg & ds & fp & ep & Hd & Hf & He & Hne & ->). rewrite <- !app_assoc in *. apply scan_at_digits; [apply Hd|exact E].
  - intros n rest _ Hn. destruct n; [lia|]. reflexivity.
  - intros n rest _ Hn. destruct n; [lia|]. reflexivity.
  - intros n rest _ Hn. destruct n; [lia|]. reflexivity.
  - intros t s Ht n rest _ Hn. destruct n; [lia|]. cbn [app]. rewrite scan_S. change (34 =? 34) with true. cbv iota. rewrite <- app_assoc. cbn [app]. rewrite (scan_str_complete t s Ht). reflexivity.
  - lits. intros w Hw n rest _ Hn. destruct n; [lia|]. lits. cbn [app]. rewrite scan_S. change (91 =? 34) with false. change (91 =? 123) with false. change (91 =? 91) with true. cbv iota. rewrite <- app_assoc, skip_ws_app by exact Hw. reflexivity.
  - lits. intros t l Hi IH n rest _ Hn. destruct n; [lia|]. lits. cbn [app]. rewrite scan_S. change (91 =? 34) with false. change (91 =? 123) with false. change (91 =? 91) with true. cbv iota. rewrite <- app_assoc. cbn [app]. specialize (IH n rest). lits. cbn [length app] in Hn. rewrite app_length in Hn. cbn in Hn. specialize (IH ltac:(lia)).
    destruct (skip_ws (t ++ 93 :: rest)) as [|d u] eqn:E; [destruct n; [lia|]; destruct n; [lia|]; discriminate IH|].
    assert (Nd : d <> 93).
    { assert (St : exists w t1 t2, ws w /\ starts t1 /\ t = w ++ t1 ++ t2) by (destruct Hi as [w1 t w2 j Hw Ht|w1 t w2 j t' l Hw Ht]; exists w1, t; eexists; (split; [exact Hw|]; split; [exact (text_starts _ _ Ht)|reflexivity])).
      destruct St as (w & t1 & t2 & Hw & Hs & ->). rewrite <- !app_assoc in E. rewrite skip_ws_app in E by exact Hw. rewrite starts_skip in E by exact Hs. destruct t1 as [|c t1]; [contradiction|]. cbn [app] in E. injection E as <- _. apply Hs. }
    replace (d =? 93) with false by lia. rewrite IH. reflexivity.
  - lits. intros w Hw n rest _ Hn. destruct n; [lia|]. lits. cbn [app]. rewrite scan_S. change (123 =? 34) with false. change (123 =? 123) with true. cbv iota. rewrite <- app_assoc, skip_ws_app by exact Hw. reflexivity.
  - lits. intros t ms kvs Hp IH Hl n rest _ Hn. destruct n; [lia|]. lits. cbn [app]. rewrite scan_S. change (123 =? 34) with false. change (123 =? 123) with true. cbv iota. rewrite <- app_assoc. cbn [app]. lits. cbn [length app] in Hn. rewrite app_length in Hn. cbn in Hn. specialize (IH n rest ltac:(lia)).
    destruct (skip_ws (t ++ 125 :: rest)) as [|d u] eqn:E; [destruct n; [lia|]; discriminate IH|].
    assert (Nd : d <> 125).
    { destruct n; [lia|]. rewrite members_S in IH. destruct (N.eqb_spec d 34) as [->|]; [discriminate|]. cbn [negb] in IH. discriminate IH. }
    replace (d =? 125) with false by lia. rewrite IH. rewrite (last_wins_unique ms kvs _ Hl (last_wins_all ms)). reflexivity.
  - lits. intros w1 t w2 j Hw1 Ht IH Hw2 n rest Hn. destruct n; [lia|]. rewrite !app_length in Hn. rewrite <- !app_assoc, skip_ws_app by exact Hw1. rewrite starts_skip by (eapply text_starts; exact Ht). rewrite elements_S. rewrite IH; [|apply ends_ws; [exact Hw2|cbn; tauto]|lia]. rewrite skip_ws_app by exact Hw2. reflexivity.
  - lits. intros w1 t w2 j t' l Hw1 Ht IH Hw2 Hi IH' n rest Hn. destruct n; [lia|]. rewrite !app_length in Hn. lits. cbn [length] in Hn. rewrite <- !app_assoc, skip_ws_app by exact Hw1. rewrite starts_skip by (eapply text_starts; exact Ht). rewrite elements_S. rewrite IH; [|apply ends_ws; [exact Hw2|cbn; tauto]|lia]. rewrite skip_ws_app by exact Hw2. lits. cbn [app]. rewrite skip_ws_id by reflexivity. cbn [N.eqb Pos.eqb]. rewrite IH' by lia. reflexivity.
  - lits. intros w1 k s w2 w3 t w4 j Hw1 Hk Hw2 Hw3 Ht IH Hw4 n rest Hn. destruct n; [lia|]. rewrite !app_length in Hn. lits. cbn [length] in Hn. rewrite <- !app_assoc, skip_ws_app by exact Hw1. cbn [app]. rewrite skip_ws_id by reflexivity. rewrite members_S. change (negb (34 =? 34)) with false. cbv iota. rewrite (scan_str_complete k s Hk). rewrite skip_ws_app by exact Hw2. lits. cbn [app]. rewrite skip_ws_id by reflexivity. change (negb (58 =? 58)) with false. cbv iota.
    rewrite skip_ws_app by exact Hw3. rewrite starts_skip by (eapply text_starts; exact Ht). rewrite IH; [|apply ends_ws; [exact Hw4|cbn; tauto]|lia]. rewrite skip_ws_app by exact Hw4. reflexivity.
  - lits. intros w1 k s w2 w3 t w4 j t' l Hw1 Hk Hw2 Hw3 Ht IH Hw4 Hp IH' n rest Hn. destruct n; [lia|]. rewrite !app_length in Hn. lits. cbn [length] in Hn. rewrite <- !app_assoc, skip_ws_app by exact Hw1. cbn [app]. rewrite skip_ws_id by reflexivity. rewrite members_S. change (negb (34 =? 34)) with false. cbv iota. rewrite (scan_str_complete k s Hk). rewrite skip_ws_app by exact Hw2. lits. cbn [app]. rewrite skip_ws_id by reflexivity. change (negb (58 =? 58)) with false. cbv iota.
    rewrite skip_ws_app by exact Hw3. rewrite starts_skip by (eapply text_starts; exact Ht). rewrite IH; [|apply ends_ws; [exact Hw4|cbn; tauto]|lia]. rewrite skip_ws_app by exact Hw4. rewrite skip_ws_id by reflexivity. cbn [N.eqb Pos.eqb]. rewrite IH' by lia. reflexivity.
Qed.
Lemma strip_prefix_inv p s t : strip_prefix p s = Some t -> s = p ++ t.
Proof.
  unfold strip_prefix. destruct (startswith p s) eqn:E; [|discriminate]. apply startswith_spec in E. destruct E as [r ->]. intros H. injection H as <-. rewrite skipn_app, skipn_all, Nat.sub_diag. reflexivity.
Qed.
Lemma items_ws w t l : ws w -> items fr t l -> items fr (w ++ t) l.
Proof.
  intros Hw H. destruct H as [w1 t w2 j Hw1 Ht Hw2|w1 t w2 j t' l Hw1 Ht Hw2 Hi]; rewrite app_assoc; constructor; auto; apply Forall_app; split; assumption.
Qed.
Lemma pairs_ws w t l : ws w -> pairs fr t l -> pairs fr (w ++ t) l.
Proof.
  intros Hw H. destruct H as [w1 k s w2 w3 t w4 j Hw1 Hk Hw2 Hw3 Ht Hw4|w1 k s w2 w3 t w4 j t' l Hw1 Hk Hw2 Hw3 Ht Hw4 Hp]; rewrite app_assoc; constructor; auto; apply Forall_app; split; assumption.
Qed.
Theorem scan_sound : forall n,
  (forall s j rest, scan fr n s = Some (j, rest) -> exists t, s = t ++ rest /\ text fr t j)
  /\ (forall s l rest, elements fr n s = Some (l, rest) -> exists t, s = t ++ 93 :: rest /\ items fr t l)
  /\ (forall s l rest, members fr n s = Some (l, rest) -> exists t, s = t ++ 125 :: rest /\ pairs fr t l).
Proof.
  induction n as [|n (IHs & IHe & IHm)]; [repeat split; intros; discriminate|]. split; [|split].
  - intros s j rest H. rewrite scan_S in H. destruct s as [|c r]; [discriminate H|]. destruct (N.eqb_spec c 34) as [->|N34].
    { destruct (scan_str r) as [[x t]|] eqn:E; [|discriminate H]. injection H as <- <-. destruct (scan_str_sound _ _ _ _ (le_n _) E) as (u & -> & Hu). exists ([34] ++ u ++ [34]). split; [cbn [app]; rewrite <- app_assoc; reflexivity|]. apply t_str, Hu. }
    destruct (N.eqb_spec c 123) as [->|N123].
    { destruct (skip_ws_split r) as (w & Hw & Er). destruct (skip_ws r) as [|d t]; [discriminate H|]. destruct (N.eqb_spec d 125) as [->|N125].
      - injection H as <- <-. exists (lit "{" ++ w ++ lit "}"). split; [rewrite Er; lits; cbn [app]; rewrite <- app_assoc; reflexivity|]. apply t_obj0, Hw.
      - destruct (members fr n (d :: t)) as [[ms t']|] eqn:Em; [|discriminate H]. injection H as <- <-. apply IHm in Em. destruct Em as (u & E & Hp). exists (lit "{" ++ (w ++ u) ++ lit "}"). split; [rewrite Er, E; lits; cbn [app]; rewrite <- !app_assoc; reflexivity|].
        eapply t_obj; [apply pairs_ws; [exact Hw|exact Hp]|apply last_wins_all]. }
    destruct (N.eqb_spec c 91) as [->|N91].
    { destruct (skip_ws_split r) as (w & Hw & Er). destruct (skip_ws r) as [|d t]; [discriminate H|]. destruct (N.eqb_spec d 93) as [->|N93].
      - injection H as <- <-. exists (lit "[" ++ w ++ lit "]"). split; [rewrite Er; lits; cbn [app]; rewrite <- app_assoc; reflexivity|]. apply t_list0, Hw.
      - destruct (elements fr n (d :: t)) as [[ms t']|] eqn:Em; [|discriminate H]. injection H as <- <-. apply IHe in Em. destruct Em as (u & E & Hp). exists (lit "[" ++ (w ++ u) ++ lit "]"). split; [rewrite Er, E; lits; cbn [app]; rewrite <- !app_assoc; reflexivity|].
        apply t_list, items_ws; [exact Hw|exact Hp]. }
    destruct (strip_prefix (lit "null") (c :: r)) as [t|] eqn:E1; [injection H as <- <-; apply strip_prefix_inv in E1; exists (lit "null"); split; [exact E1|constructor]|].
    destruct (strip_prefix (lit "true") (c :: r)) as [t|] eqn:E2; [injection H as <- <-; apply strip_prefix_inv in E2; exists (lit "true"); split; [exact E2|constructor]|].
    destruct (strip_prefix (lit "false") (c :: r)) as [t|] eqn:E3; [injection H as <- <-; apply strip_prefix_inv in E3; exists (lit "false"); split; [exact E3|constructor]|].
    destruct (scan_number fr (c :: r)) as [x|] eqn:E4; [injection H as ->; apply scan_number_sound, E4|].
    destruct (strip_prefix (lit "NaN") (c :: r)) as [t|] eqn:E5; [injection H as <- <-; apply strip_prefix_inv in E5; exists (lit "NaN"); split; [exact E5|constructor]|].
    destruct (strip_prefix (lit "Infinity") (c :: r)) as [t|] eqn:E6; [injection H as <- <-; apply strip_prefix_inv in E6; exists (lit "Infinity"); split; [exact E6|constructor]|].
    destruct (strip_prefix (lit "-Infinity") (c :: r)) as [t|] eqn:E7; [injection H as <- <-; apply strip_prefix_inv in E7; exists (lit "-Infinity"); split; [exact E7|constructor]|discriminate H].
  - intros s l rest H. rewrite elements_S in H. destruct (scan fr n s) as [[x r]|] eqn:E; [|discriminate H]. apply IHs in E. destruct E as (t & -> & Ht). destruct (skip_ws_split r) as (w & Hw & Er). destruct (skip_ws r) as [|c u]; [discriminate H|].
    destruct (N.eqb_spec c 93) as [->|]; [injection H as <- <-; exists ([] ++ t ++ w); split; [rewrite Er; cbn [app]; rewrite <- app_assoc; reflexivity|]; constructor; [constructor|exact Ht|exact Hw]|].
    destruct (N.eqb_spec c 44) as [->|]; [|discriminate H]. destruct (elements fr n (skip_ws u)) as [[l' t']|] eqn:E; [|discriminate H]. injection H as <- <-. apply IHe in E. destruct E as (v & E & Hi). destruct (skip_ws_split u) as (w' & Hw' & Eu).
    exists ([] ++ t ++ w ++ lit "," ++ w' ++ v). split; [rewrite Er, Eu, E; lits; cbn [app]; rewrite <- !app_assoc; cbn [app]; rewrite <- !app_assoc; reflexivity|]. constructor; [constructor|exact Ht|exact Hw|apply items_ws; assumption].
  - intros s l rest H. rewrite members_S in H. destruct s as [|q r]; [discriminate H|]. destruct (N.eqb_spec q 34) as [->|]; [|discriminate H]. cbn [negb] in H. destruct (scan_str r) as [[k r1]|] eqn:Ek; [|discriminate H]. destruct (scan_str_sound _ _ _ _ (le_n _) Ek) as (kt & -> & Hk).
    destruct (skip_ws_split r1) as (w & Hw & Er). destruct (skip_ws r1) as [|c r2]; [discriminate H|]. destruct (N.eqb_spec c 58) as [->|]; [|discriminate H]. cbn [negb] in H. destruct (skip_ws_split r2) as (w3 & Hw3 & Er2).
    destruct (scan fr n (skip_ws r2)) as [[v r3]|] eqn:E; [|discriminate H]. apply IHs in E. destruct E as (t & Et & Ht). destruct (skip_ws_split r3) as (w4 & Hw4 & Er3). destruct (skip_ws r3) as [|d u]; [discriminate H|].
    destruct (N.eqb_spec d 125) as [->|]; [injection H as <- <-; exists ([] ++ [34] ++ kt ++ [34] ++ w ++ lit ":" ++ w3 ++ t ++ w4); split; [rewrite Er, Er2, Et, Er3; lits; cbn [app]; rewrite <- !app_assoc; cbn [app]; rewrite <- !app_assoc; cbn [app]; rewrite <- !app_assoc; reflexivity|]; constructor; try assumption; constructor|].
    destruct (N.eqb_spec d 44) as [->|]; [|discriminate H]. destruct (members fr n (skip_ws u)) as [[l' t']|] eqn:E; [|discriminate H]. injection H as <- <-. apply IHm in E. destruct E as (x & E & Hi). destruct (skip_ws_split u) as (w' & Hw' & Eu).
    exists ([] ++ [34] ++ kt ++ [34] ++ w ++ lit ":" ++ w3 ++ t ++ w4 ++ lit "," ++ w' ++ x). split; [rewrite Er, Er2, Et, Er3, Eu, E; lits; repeat (cbn [app]; rewrite <- ?app_assoc); reflexivity|]. constructor; try assumption; [constructor|apply pairs_ws; assumption].
Qed.
Theorem loads_iff s j : loads fr s = Some j <-> json_text fr s j.
Proof.
  unfold loads, json_text. split.
  - destruct (startswith [65279] s); [discriminate|]. destruct (skip_ws_split s) as (w1 & Hw1 & Es). destruct (scan fr (2 * length s + 1) (skip_ws s)) as [[j' r]|] eqn:E; [|discriminate]. apply (proj1 (scan_sound _)) in E. destruct E as (t & Et & Ht). destruct (skip_ws_split r) as (w2 & Hw2 & Er). destruct (skip_ws r); [|discriminate]. intros H. injection H as <-.
    exists w1, t, w2. rewrite Er, app_nil_r in Et. rewrite Et in Es. auto.
  - intros (w1 & t & w2 & Hw1 & Hw2 & -> & Ht). pose proof (text_starts t j Ht) as St. assert (Nb : startswith [65279] (w1 ++ t ++ w2) = false).
    { destruct (startswith [65279] (w1 ++ t ++ w2)) eqn:E; [|reflexivity]. exfalso. apply startswith_spec in E. destruct E as [r E]. destruct Hw1 as [|c w1 Hc Hw1]; [|cbn in E; injection E as -> _; lia]. destruct t as [|c t]; [contradiction|]. cbn in E. injection E as -> _. apply St; reflexivity. }
    rewrite Nb. rewrite skip_ws_app by exact Hw1. rewrite starts_skip by exact St. rewrite (proj1 scan_complete t j Ht (2 * length (w1 ++ t ++ w2) + 1)%nat w2).
    + rewrite <- (app_nil_r w2), skip_ws_app by exact Hw2. reflexivity.
    + rewrite <- (app_nil_r w2). apply ends_ws; [exact Hw2|exact I].
    + rewrite !app_length. lia.
Qed.
End Read.
