(** The text of an expression is parsed to an equivalent expression. *)
From Verif Require Import PyStr Dec DecProofs Basic Regex RegexSpec RegexProofs RegexProofs2.
From Coq Require Import ZifyBool ZifyN ZifyNat.

Section Equiv.
Variables digit space word : N -> Prop.
Definition equiv (a b : regex) : Prop := forall x w y, den digit space word a x w y <-> den digit space word b x w y.
Lemma equiv_eps_r a a' : equiv a a' -> equiv a (RSeq a' REps).
Proof.
  intros E x w y. rewrite (E x w y). cbn [den]. split.
  - intros H. exists w, []. rewrite app_nil_r. auto.
  - intros (w1 & w2 & -> & H & ->). rewrite app_nil_r. exact H.
Qed.
Lemma equiv_seq a a' b b' : equiv a a' -> equiv b b' -> equiv (RSeq a b) (RSeq a' b').
Proof. intros A B x w y. cbn [den]. split; intros (w1 & w2 & -> & H1 & H2); exists w1, w2; (split; [reflexivity|]); split; first [apply A|apply B]; assumption. Qed.
Lemma equiv_alt a a' b b' : equiv a a' -> equiv b b' -> equiv (RAlt a b) (RAlt a' b').
Proof. intros A B x w y. cbn [den]. rewrite (A x w y), (B x w y). tauto. Qed.
Lemma times_ext P Q : (forall x w y, P x w y <-> Q x w y) -> forall n x w y, times P n x w y <-> times Q n x w y.
Proof.
  intros E. induction n as [|n IH]; intros x w y; cbn [times]; [tauto|]. split; intros (w1 & w2 & -> & H1 & H2); exists w1, w2; (split; [reflexivity|]); split; first [apply E|apply IH]; assumption.
Qed.
Lemma equiv_rep a a' lo more : equiv a a' -> equiv (RRep a lo more) (RRep a' lo more).
Proof. intros A x w y. cbn [den]. split; intros (n & L & H); exists n; (split; [exact L|]); apply (times_ext _ _ A); exact H. Qed.
End Equiv.

Lemma alnum_codes c : is_digit c || is_letter c = true -> c <> 45 /\ c <> 92 /\ c <> 93 /\ c <> 94.
Proof. unfold is_digit, is_letter, is_upper, is_lower. lia. Qed.
Lemma esc_item c : is_digit c || is_letter c = false -> escape_item c = POk (CRange c c).
Proof.
  intros H. unfold escape_item, class_of, control, is_digit, is_letter, is_upper, is_lower in *. repeat match goal with |- context [c =? ?k] => replace (c =? k) with false by lia end.
  replace (char_mem c (lit "xuUNAbBZ")) with false; [|symmetry; apply char_mem_false; cbn [lit In]; cbn; lia]. replace ((48 <=? c) && (c <=? 57)) with false by lia. cbn [orb]. replace ((65 <=? c) && (c <=? 90) || (97 <=? c) && (c <=? 122)) with false by lia. reflexivity.
Qed.
Lemma p_set_text : forall l rest n first, (forall lo hi, In (CRange lo hi) l -> lo <= hi) -> (length l < n)%nat -> (first = true -> l <> []) ->
  p_set n first (concat (map item_text l) ++ 93 :: rest) = POk (l, rest).
Proof.
  induction l as [|i l IH]; intros rest n first O L F; (destruct n as [|n]; [cbn [length] in L; lia|]).
  - destruct first; [exfalso; apply F; reflexivity|]. reflexivity.
  - cbn [length] in L. pose proof (IH rest n false (fun lo hi H => O lo hi (or_intror H)) ltac:(lia) ltac:(discriminate)) as R. cbn [map concat]. destruct i as [lo hi|k neg].
    + pose proof (O lo hi (or_introl eq_refl)) as Ord. cbn [item_text]. 
      assert (Start : forall (T : Type) c t (kk : citem -> pystr -> pres T), (match esc c ++ t with [] => PBad | c :: s => if (c =? 93) && negb first then PBad else do (a, s) <- (if c =? 92 then match s with [] => PBad | e :: s => do i <- escape_item e; POk (i, s) end else POk (CRange c c, s)); kk a s end) = kk (CRange c c) t).
      { intros T c t kk. unfold esc. destruct (is_digit c || is_letter c) eqn:E; cbn [app].
        - apply alnum_codes in E. destruct (N.eqb_spec c 93); [lia|]. destruct (N.eqb_spec c 92); [lia|]. reflexivity.
        - change (92 =? 93) with false. change (92 =? 92) with true. cbn [andb]. rewrite (esc_item c E). reflexivity. }
      assert (Mid : forall c t (kk : citem -> pystr -> pres (list citem * pystr)) z0, match esc c ++ t with [] => PBad | e :: s'' => if e =? 93 then z0 s'' else do (b, s3) <- (if e =? 92 then match s'' with [] => PBad | f :: s4 => do i <- escape_item f; POk (i, s4) end else POk (CRange e e, s'')); kk b s3 end = kk (CRange c c) t).
      { intros c t kk z0. unfold esc. destruct (is_digit c || is_letter c) eqn:E; cbn [app].
        - apply alnum_codes in E. destruct (N.eqb_spec c 93); [lia|]. destruct (N.eqb_spec c 92); [lia|]. reflexivity.
        - change (92 =? 93) with false. change (92 =? 92) with true. rewrite (esc_item c E). reflexivity. }
      rewrite <- !app_assoc. cbn [p_set].
      assert (G : forall t, (exists c t', esc lo ++ t = c :: t' /\ c <> 93)) by (intros t; unfold esc; destruct (is_digit lo || is_letter lo) eqn:E; [apply alnum_codes in E; exists lo, t; split; [reflexivity|lia]|exists 92, (lo :: t); split; [reflexivity|discriminate]]).
      assert (Step : forall t (kk : citem -> pystr -> pres (list citem * pystr)), match esc lo ++ t with [] => PBad | c :: s => if (c =? 93) && negb first then POk ([], s) else do (a, s) <- (if c =? 92 then match s with [] => PBad | e :: s => do i <- escape_item e; POk (i, s) end else POk (CRange c c, s)); kk a s end = kk (CRange lo lo) t).
      { intros t kk. rewrite <- (Start _ lo t kk). destruct (G t) as (c & t' & E & N93). rewrite E. destruct (N.eqb_spec c 93); [contradiction|]. reflexivity. }
      etransitivity; [exact (Step ([45] ++ esc hi ++ concat (map item_text l) ++ 93 :: rest) (fun a s => match s with
         | [] => PBad
         | d :: s' => if d =? 45 then match s' with
                | [] => PBad
                | e :: s'' =>
                    if e =? 93 then POk ([a; CRange 45 45], s'') else
                    do (b, s3) <- (if e =? 92 then match s'' with [] => PBad | f :: s4 => do i <- escape_item f; POk (i, s4) end else POk (CRange e e, s''));
                    match a, b with
                    | CRange lo _, CRange hi _ => if hi <? lo then PBad else do (l, t) <- p_set n false s3; POk (CRange lo hi :: l, t)
                    | _, _ => PBad
                    end
                end
              else do (l, t) <- p_set n false s; POk (a :: l, t)
         end))|]. cbv beta.
      cbn [app]. change (45 =? 45) with true. cbv iota.
      etransitivity; [exact (Mid hi (concat (map item_text l) ++ 93 :: rest) (fun b s3 => match b with CRange hi _ => if hi <? lo then PBad else do (l, t) <- p_set n false s3; POk (CRange lo hi :: l, t) | _ => PBad end) (fun s'' => POk ([CRange lo lo; CRange 45 45], s'')))|].
      cbv beta iota. destruct (N.ltb_spec hi lo); [lia|]. rewrite R. reflexivity.
    + assert (X : exists c, item_text (CClass k neg) = [92; c] /\ escape_item c = POk (CClass k neg)) by (destruct k, neg; (eexists; split; [reflexivity|reflexivity])).
      destruct X as (c & E1 & E2). rewrite E1. cbn [app p_set]. change (92 =? 93) with false. change (92 =? 92) with true. cbn [andb]. rewrite E2. cbn [pbind].
      assert (Y : exists d t, concat (map item_text l) ++ 93 :: rest = d :: t /\ d <> 45).
      { destruct l as [|j l]; [exists 93, rest; split; [reflexivity|discriminate]|]. cbn [map concat]. destruct j as [lo hi|k' neg'].
        - cbn [item_text]. unfold esc at 1. destruct (is_digit lo || is_letter lo) eqn:E; [apply alnum_codes in E; eexists lo, _; split; [reflexivity|lia]|eexists 92, _; split; [reflexivity|discriminate]].
        - exists 92. destruct k', neg'; eexists; (split; [reflexivity|discriminate]). }
      destruct Y as (d & t & E3 & N45). rewrite E3 in *. destruct (N.eqb_spec d 45); [contradiction|]. rewrite R. reflexivity.
Qed.
Lemma span_all : forall s rest, all_digits s = true -> match rest with c :: _ => is_digit c = false | [] => True end -> span_digits (s ++ rest) = (s, rest).
Proof.
  induction s as [|c s IH]; intros rest A R; cbn [app].
  - destruct rest as [|c r]; [reflexivity|]. cbn [span_digits]. rewrite R. reflexivity.
  - unfold all_digits in A. cbn [forallb] in A. apply andb_true_iff in A. destruct A as [A1 A2]. cbn [span_digits]. rewrite A1, (IH rest A2 R). reflexivity.
Qed.
Lemma digits_head n : exists c s, digits_of n = c :: s /\ is_digit c = true.
Proof. pose proof (digits_of_all n) as A. pose proof (digits_of_nonempty n) as E. destruct (digits_of n) as [|c s]; [contradiction|]. unfold all_digits in A. cbn [forallb] in A. apply andb_true_iff in A. exists c, s. split; [reflexivity|tauto]. Qed.
Lemma p_count_text lo more rest :
  p_count (digits_of (N.of_nat lo) ++ lit "," ++ match more with Some x => digits_of (N.of_nat (lo + x)) | None => [] end ++ lit "}" ++ rest) = Some (lo, option_map (fun x => lo + x)%nat more, rest).
Proof.
  unfold p_count. destruct (digits_head (N.of_nat lo)) as (c & s & E & C).
  assert (S1 : forall t, startswith (lit "}") (digits_of (N.of_nat lo) ++ t) = false) by (intros t; rewrite E; cbn [app lit startswith]; cbn; unfold is_digit in C; destruct c; [reflexivity|]; destruct (N.eqb_spec 125 (N.pos p)); [lia|]; cbn in *; lia).
  rewrite S1. rewrite (span_all (digits_of (N.of_nat lo)) (lit "," ++ _)); [|apply digits_of_all|reflexivity]. cbn [app lit]. change (44 =? 44) with true. cbv iota.
  destruct more as [x|]; cbn [option_map].
  - rewrite span_all; [|apply digits_of_all|reflexivity]. cbn [app]. change (125 =? 125) with true. cbv iota. destruct (digits_head (N.of_nat (lo + x))) as (c' & s' & E' & _). rewrite !val_digits_of, !Nat2N.id. rewrite E, E'. reflexivity.
  - change (span_digits ([] ++ 125 :: rest)) with (@nil N, 125 :: rest). change (125 =? 125) with true. cbv iota. rewrite val_digits_of, Nat2N.id. rewrite E. reflexivity.
Qed.

(** the text between the brackets *)
Definition body (r : regex) : pystr :=
  match r with
  | RSet neg l => lit "[" ++ (if neg then lit "^" else []) ++ concat (map item_text l) ++ lit "]"
  | REps => []
  | RSeq a b => regex_text a ++ regex_text b
  | RAlt a b => regex_text a ++ lit "|" ++ regex_text b
  | RRep r lo more => regex_text r ++ lit "{" ++ digits_of (N.of_nat lo) ++ lit "," ++ match more with Some x => digits_of (N.of_nat (lo + x)) | None => [] end ++ lit "}"
  | RBol => lit "^"
  | REol => lit "$"
  end.
Lemma text_body r : regex_text r = lit "(?:" ++ body r ++ lit ")". Proof. destruct r; reflexivity. Qed.
Fixpoint need (r : regex) : nat := match r with RSeq a b | RAlt a b => (5 + (need a + need b))%nat | RRep a _ _ => (5 + need a)%nat | _ => 4%nat end.
Lemma need_len r : (need r <= 3 * length (regex_text r))%nat.
Proof. induction r; rewrite text_body; cbn [need body]; rewrite !app_length; cbn [length lit app]; cbn; rewrite ?app_length; cbn; lia. Qed.
Definition parses digit space word (r r' : regex) : Prop := equiv digit space word r r' /\ forall n g rest, (need r <= n)%nat -> exists g', p_alt n g (body r ++ 41 :: rest) = POk (r', 41 :: rest, g').
Lemma group_text ds sp wd r r' : parses ds sp wd r r' -> forall n g rest x t, (S (need r) <= n)%nat -> p_repeat r' true rest = POk (x, t) -> exists g', p_group n g (lit "?:" ++ body r ++ 41 :: rest) = POk (x, t, g').
Proof.
  intros [_ P] n g rest x t L R. destruct n as [|n]; [lia|]. destruct (P n g rest ltac:(lia)) as (g' & E). cbn [p_group].
  assert (S1 : startswith (lit "?") (lit "?:" ++ body r ++ 41 :: rest) = true) by reflexivity. assert (S2 : startswith (lit "?:") (lit "?:" ++ body r ++ 41 :: rest) = true) by reflexivity.
  rewrite S1, S2. cbn [negb andb]. change (skipn 2 (lit "?:" ++ body r ++ 41 :: rest)) with (body r ++ 41 :: rest). rewrite E. cbn [pbind]. change (41 =? 41) with true. cbv iota. rewrite R. cbn [pbind]. eexists. reflexivity.
Qed.
Lemma no_quant r c rest : c <> 42 -> c <> 43 -> c <> 63 -> c <> 123 -> p_repeat r true (c :: rest) = POk (r, c :: rest).
Proof. intros A B C D. unfold p_repeat, p_quant. destruct (N.eqb_spec c 42); [contradiction|]. destruct (N.eqb_spec c 43); [contradiction|]. destruct (N.eqb_spec c 63); [contradiction|]. destruct (N.eqb_spec c 123); [contradiction|]. reflexivity. Qed.
Lemma seq_text ds sp wd r r' : parses ds sp wd r r' -> forall n g rest x t, (need r + 2 <= n)%nat -> p_repeat r' true rest = POk (x, t) ->
  exists g', p_seq n g (regex_text r ++ rest) = (do (b, t, g) <- p_seq (n - 1) g' t; POk (RSeq x b, t, g)).
Proof.
  intros P n g rest x t L R. destruct n as [|n]; [lia|]. destruct (group_text ds sp wd r r' P n g rest x t ltac:(lia) R) as (g' & E). exists g'. rewrite text_body.
  replace ((lit "(?:" ++ body r ++ lit ")") ++ rest) with (40 :: (lit "?:" ++ body r ++ 41 :: rest)) by (rewrite <- !app_assoc; reflexivity). cbn [p_seq]. change ((40 =? 124) || (40 =? 41)) with false. change (40 =? 40) with true. cbv iota. rewrite E. cbn [pbind]. replace (S n - 1)%nat with n by lia. reflexivity.
Qed.
Lemma seq_stop n g c rest : (1 <= n)%nat -> c = 41 \/ c = 124 -> p_seq n g (c :: rest) = POk (REps, c :: rest, g).
Proof. intros L [-> | ->]; destruct n; try lia; reflexivity. Qed.
Lemma alt_stop n g s x rest g' : p_seq n g s = POk (x, 41 :: rest, g') -> p_alt (S n) g s = POk (x, 41 :: rest, g').
Proof. intros H. cbn [p_alt]. rewrite H. reflexivity. Qed.
Lemma body_parses ds sp wd : forall r, sound r -> exists r', parses ds sp wd r r'.
Proof.
  induction r as [neg l| |a IHa b IHb|a IHa b IHb|a IHa lo more| |]; intros So; cbn [sound] in So.
  - exists (RSeq (RSet neg l) REps). split; [apply equiv_eps_r; intros x w y; tauto|]. intros n g rest L. cbn [need] in L. destruct n as [|[|[|n]]]; try lia. exists g. apply alt_stop. destruct So as [Ne O].
    assert (S1 : p_single g (body (RSet neg l) ++ 41 :: rest) = POk (RSet neg l, true, 41 :: rest)).
    { assert (Le : forall l, (length l <= length (concat (map item_text l)))%nat).
      { clear. induction l as [|i l IH]; [cbn; lia|]. cbn [map concat length]. rewrite app_length. assert (1 <= length (item_text i))%nat; [|lia]. destruct i as [lo hi|[] []]; cbn; try lia. rewrite app_length. cbn [length]. lia. }
      cbn [body]. rewrite <- !app_assoc. change (lit "[" ++ ?x) with (91 :: x). cbn [p_single]. change (91 =? 46) with false. change (91 =? 94) with false. change (91 =? 36) with false. change (91 =? 91) with true. cbv iota. destruct neg.
      - change (lit "^" ++ ?x) with (94 :: x). cbv iota. change (94 =? 94) with true. cbv iota. change (lit "]" ++ 41 :: rest) with (93 :: 41 :: rest). rewrite p_set_text; [reflexivity|exact O| |intros _; exact Ne]. specialize (Le l). cbn [length]. rewrite app_length. lia.
      - cbn [app]. change (lit "]" ++ 41 :: rest) with (93 :: 41 :: rest).
        assert (Y : exists d t, concat (map item_text l) ++ 93 :: 41 :: rest = d :: t /\ d <> 94).
        { destruct l as [|j l]; [contradiction|]. cbn [map concat]. destruct j as [lo hi|k' neg'].
          - cbn [item_text]. unfold esc at 1. destruct (is_digit lo || is_letter lo) eqn:E; [apply alnum_codes in E; eexists lo, _; split; [reflexivity|lia]|eexists 92, _; split; [reflexivity|discriminate]].
          - exists 92. destruct k', neg'; eexists; (split; [reflexivity|discriminate]). }
        destruct Y as (d & t & E & N94). pose proof (p_set_text l (41 :: rest) (length (d :: t)) true O) as X. rewrite E in *. destruct (N.eqb_spec d 94); [contradiction|]. rewrite X; [reflexivity| |intros _; exact Ne]. rewrite <- E, app_length. cbn [length]. specialize (Le l). lia. }
    cbn [p_seq]. assert (H : exists c s, body (RSet neg l) ++ 41 :: rest = c :: s /\ c = 91) by (eexists 91, _; split; reflexivity). destruct H as (c & s & E & ->). rewrite E in *. change ((91 =? 124) || (91 =? 41)) with false. change (91 =? 40) with false. cbv iota. rewrite S1. cbn [pbind]. rewrite no_quant by discriminate. reflexivity.
  - exists REps. split; [intros x w y; tauto|]. intros n g rest L. cbn [need] in L. destruct n as [|[|n]]; try lia. exists g. reflexivity.
  - destruct So as [Sa Sb]. destruct (IHa Sa) as (a' & Pa). destruct (IHb Sb) as (b' & Pb). exists (RSeq a' (RSeq b' REps)). split; [apply equiv_seq; [exact (proj1 Pa)|apply equiv_eps_r; exact (proj1 Pb)]|].
    intros n g rest L. cbn [need] in L. destruct n as [|n]; [lia|]. cbn [body]. rewrite <- app_assoc.
    destruct (seq_text ds sp wd a a' Pa n g (regex_text b ++ 41 :: rest) a' (regex_text b ++ 41 :: rest)) as (g1 & E1); [lia|rewrite text_body; apply no_quant; discriminate|].
    destruct (seq_text ds sp wd b b' Pb (n - 1) g1 (41 :: rest) b' (41 :: rest)) as (g2 & E2); [lia|apply no_quant; discriminate|]. rewrite E2 in E1. rewrite seq_stop in E1 by (auto; lia). cbn [pbind] in E1. exists g2. apply alt_stop. exact E1.
  - destruct So as [Sa Sb]. destruct (IHa Sa) as (a' & Pa). destruct (IHb Sb) as (b' & Pb). exists (RAlt (RSeq a' REps) (RSeq b' REps)). split; [apply equiv_alt; apply equiv_eps_r; [exact (proj1 Pa)|exact (proj1 Pb)]|].
    intros n g rest L. cbn [need] in L. destruct n as [|[|n]]; try lia. cbn [body]. rewrite <- !app_assoc.
    destruct (seq_text ds sp wd a a' Pa (S n) g (lit "|" ++ regex_text b ++ 41 :: rest) a' (lit "|" ++ regex_text b ++ 41 :: rest)) as (g1 & E1); [lia|apply no_quant; discriminate|]. change (lit "|" ++ ?x) with (124 :: x) in E1. rewrite seq_stop in E1 by (auto; lia). cbn [pbind] in E1.
    destruct (seq_text ds sp wd b b' Pb n g1 (41 :: rest) b' (41 :: rest)) as (g2 & E2); [lia|apply no_quant; discriminate|]. rewrite seq_stop in E2 by (auto; lia). cbn [pbind] in E2. apply alt_stop in E2.
    exists g2. change (lit "|" ++ ?x) with (124 :: x). cbn [p_alt] in *. rewrite E1. cbn [pbind]. change (124 =? 124) with true. cbv iota. rewrite E2. reflexivity.
  - destruct (IHa So) as (a' & Pa). exists (RSeq (RRep a' lo more) REps). split; [apply equiv_eps_r, equiv_rep; exact (proj1 Pa)|]. intros n g rest L. cbn [need] in L. destruct n as [|n]; [lia|]. cbn [body]. rewrite <- !app_assoc. 
    destruct (seq_text ds sp wd a a' Pa n g (lit "{" ++ digits_of (N.of_nat lo) ++ lit "," ++ match more with Some x => digits_of (N.of_nat (lo + x)) | None => [] end ++ lit "}" ++ 41 :: rest) (RRep a' lo more) (41 :: rest)) as (g1 & E1); [lia| |].
    { unfold p_repeat. change (lit "{" ++ ?x) with (123 :: x). cbn [p_quant]. change (123 =? 42) with false. change (123 =? 43) with false. change (123 =? 63) with false. change (123 =? 123) with true. cbv iota. rewrite p_count_text. cbn [negb].
      replace (match option_map (fun x => (lo + x)%nat) more with Some h => (h <? lo)%nat | None => false end) with false; [|destruct more as [x|]; cbn [option_map]; [symmetry; apply Nat.ltb_ge; lia|reflexivity]].
      change (41 =? 43) with false. change (41 =? 63) with false. cbv iota. do 3 f_equal. destruct more as [x|]; cbn [option_map]; [f_equal; lia|reflexivity]. }
    rewrite seq_stop in E1 by (auto; lia). cbn [pbind] in E1. exists g1. apply alt_stop. exact E1.
  - exists (RSeq RBol REps). split; [apply equiv_eps_r; intros x w y; tauto|]. intros n g rest L. cbn [need] in L. destruct n as [|[|[|n]]]; try lia. exists g. reflexivity.
  - exists (RSeq REol REps). split; [apply equiv_eps_r; intros x w y; tauto|]. intros n g rest L. cbn [need] in L. destruct n as [|[|[|n]]]; try lia. exists g. reflexivity.
Qed.
Theorem text_compiles ds sp wd : forall r, sound r -> exists r', re_compile (regex_text r) = POk r' /\ equiv ds sp wd r r'.
Proof.
  intros r So. destruct (body_parses ds sp wd r So) as (r' & P). exists (RSeq r' REps). split; [|apply equiv_eps_r; exact (proj1 P)].
  unfold re_compile. pose proof (need_len r) as L. set (n := (3 * length (regex_text r) + 2)%nat). replace (3 * length (regex_text r) + 3)%nat with (S n) by (subst n; lia).
  destruct (seq_text ds sp wd r r' P n (0, []) [] r' []) as (g' & E); [subst n; lia|reflexivity|]. rewrite app_nil_r in E. cbn [p_alt]. rewrite E. replace (n - 1)%nat with (S (n - 2)) by (subst n; lia). reflexivity.
Qed.
