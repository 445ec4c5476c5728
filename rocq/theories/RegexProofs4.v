(** Every text in the notation of RegexSyntax.v compiles to the expression it stands for. *)
From Verif Require Import PyStr Dec DecProofs Basic Regex RegexSpec RegexSyntax RegexProofs RegexProofs2 RegexProofs3.
From Coq Require Import Lia ZifyBool ZifyN ZifyNat.

Lemma named_escape l c : In (l, c) named_chars -> escape_item l = POk (CRange c c) /\ is_digit l = false.
Proof. cbn [named_chars In]. intros H. repeat destruct H as [H|H]; try contradiction; injection H as <- <-; split; reflexivity. Qed.
Lemma escaped_escape c : is_digit c = false /\ is_letter c = false -> escape_item c = POk (CRange c c) /\ is_digit c = false.
Proof. intros [A B]. split; [apply esc_item; rewrite A, B; reflexivity|exact A]. Qed.
Lemma class_escape k neg : exists c, class_text k neg = [92; c] /\ escape_item c = POk (CClass k neg) /\ is_digit c = false.
Proof. destruct k, neg; eexists; (split; [reflexivity|]); split; reflexivity. Qed.

(** sets *)
Definition rd (s : pystr) : pres (citem * pystr) := match s with [] => PBad | c :: s => if c =? 92 then match s with [] => PBad | e :: s => do i <- escape_item e; POk (i, s) end else POk (CRange c c, s) end.
Lemma rd_spell sp x t : In 92 sp -> spelling_ok sp x -> rd (spell x ++ t) = POk (CRange (code x) (code x), t).
Proof.
  intros S92 H. destruct x as [c|c|l c]; cbn [spelling_ok spell code app rd] in *.
  - destruct (N.eqb_spec c 92); [subst; contradiction|reflexivity].
  - destruct (escaped_escape c H) as [E _]. change (92 =? 92) with true. cbv iota. rewrite E. reflexivity.
  - destruct (named_escape l c H) as [E _]. change (92 =? 92) with true. cbv iota. rewrite E. reflexivity.
Qed.
Lemma rd_class k neg t : rd (class_text k neg ++ t) = POk (CClass k neg, t).
Proof. destruct (class_escape k neg) as (c & E & F & _). rewrite E. cbn [app rd]. change (92 =? 92) with true. cbv iota. rewrite F. reflexivity. Qed.
Lemma spell_head sp x t : In 92 sp -> spelling_ok sp x -> exists c r, spell x ++ t = c :: r /\ (In c sp -> c = 92).
Proof. intros S H. destruct x as [c|c|l c]; cbn [spell app spelling_ok] in *; eexists _, _; (split; [reflexivity|]); [contradiction|tauto|tauto]. Qed.
Lemma p_set_step n first s a t : (exists c r, s = c :: r /\ c <> 93 \/ s = c :: r /\ first = true) -> rd s = POk (a, t) -> p_set (S n) first s =
  match t with
  | d :: s' =>
      if d =? 45 then
        match s' with
        | [] => PBad
        | e :: s'' =>
            if e =? 93 then POk ([a; CRange 45 45], s'') else
            do (b, s3) <- rd s';
            match a, b with
            | CRange lo _, CRange hi _ => if hi <? lo then PBad else do (l, t) <- p_set n false s3; POk (CRange lo hi :: l, t)
            | _, _ => PBad
            end
        end
      else do (l, t) <- p_set n false t; POk (a :: l, t)
  | [] => PBad
  end.
Proof.
  intros (c & r & H) R. assert (s = c :: r /\ (c =? 93) && negb first = false) as [-> X] by (destruct H as [[-> H]|[-> ->]]; (split; [reflexivity|]); [destruct (N.eqb_spec c 93); [contradiction|reflexivity]|apply andb_false_r]).
  cbn [p_set]. rewrite X. change (if c =? 92 then match r with [] => PBad | e :: s => do i <- escape_item e; POk (i, s) end else POk (CRange c c, r)) with (rd (c :: r)). rewrite R. cbn [pbind]. destruct t as [|d [|e t]]; reflexivity.
Qed.
Definition set_special : pystr := lit "\]^-".
Lemma member_head m t : member_ok m -> exists c r, member_text m ++ t = c :: r /\ c <> 93 /\ c <> 45 /\ c <> 94.
Proof.
  intros H. assert (S : forall x t, spelling_ok (lit "\]^-") x -> exists c r, spell x ++ t = c :: r /\ c <> 93 /\ c <> 45 /\ c <> 94).
  { intros x u Hx. destruct (spell_head (lit "\]^-") x u (or_introl eq_refl) Hx) as (c & r & E & N92). exists c, r. split; [exact E|]. cbn in N92. lia. }
  destruct m as [x|lo hi|k neg]; cbn [member_ok member_text] in *; [apply S; exact H|rewrite <- app_assoc; apply S; tauto|].
  destruct (class_escape k neg) as (c & E & _). rewrite E. eexists 92, _. split; [reflexivity|lia].
Qed.
Lemma p_set_members : forall l dash rest n first, (forall m, In m l -> member_ok m) -> (first = true -> l <> [] \/ dash = true) -> (length l + (if dash then 1 else 0) < n)%nat ->
  p_set n first (concat (map member_text l) ++ (if dash then lit "-" else []) ++ 93 :: rest) = POk (map member_item l ++ (if dash then [CRange 45 45] else []), rest).
Proof.
  induction l as [|m l IH]; intros dash rest n first OK F L; (destruct n as [|n]; [cbn [length] in L; lia|]).
  - cbn [map concat app]. destruct dash.
    + change (lit "-" ++ 93 :: rest) with (45 :: 93 :: rest). rewrite (p_set_step n first _ (CRange 45 45) (93 :: rest)); [|exists 45, (93 :: rest); left; split; [reflexivity|discriminate]|reflexivity].
      change (93 =? 45) with false. cbv iota. destruct n as [|n]; [cbn in L; lia|]. reflexivity.
    + destruct first; [destruct (F eq_refl) as [K|K]; [contradiction|discriminate K]|reflexivity].
  - cbn [length] in L. pose proof (IH dash rest n false (fun m' H => OK m' (or_intror H)) ltac:(discriminate) ltac:(lia)) as R. pose proof (OK m (or_introl eq_refl)) as Hm. cbn [map concat]. rewrite <- app_assoc. set (T := concat (map member_text l) ++ (if dash then lit "-" else []) ++ 93 :: rest) in *.
    destruct (member_head m T Hm) as (c & r & E & C93 & _).
    assert (HT : (T = 45 :: 93 :: rest /\ l = [] /\ dash = true) \/ exists d u, T = d :: u /\ d <> 45).
    { unfold T. destruct l as [|m' l]; [destruct dash; [left; auto|right; exists 93, rest; split; [reflexivity|discriminate]]|]. right. cbn [map concat]. rewrite <- app_assoc. destruct (member_head m' (concat (map member_text l) ++ (if dash then lit "-" else []) ++ 93 :: rest) (OK m' (or_intror (or_introl eq_refl)))) as (d & u & E' & _ & D45 & _). exists d, u. auto. }
    assert (Plainly : forall a, rd (member_text m ++ T) = POk (a, T) -> p_set (S n) first (member_text m ++ T) = POk ((a :: map member_item l) ++ (if dash then [CRange 45 45] else []), rest)).
    { intros a Ha. rewrite (p_set_step n first _ a T); [|exists c, r; left; auto|exact Ha]. destruct HT as [(-> & -> & ->)|(d & u & ET & D)]; [reflexivity|]. rewrite ET in *. destruct (N.eqb_spec d 45); [contradiction|]. rewrite R. reflexivity. }
    destruct m as [x|lo hi|k neg]; cbn [member_item member_text member_ok] in *.
    + apply Plainly. apply (rd_spell (lit "\]^-")); [left; reflexivity|exact Hm].
    + clear Plainly. destruct Hm as (Hl & Hh & Ord). rewrite <- !app_assoc in *.
      rewrite (p_set_step n first _ (CRange (code lo) (code lo)) (lit "-" ++ spell hi ++ T)); [|exists c, r; left; auto|apply (rd_spell (lit "\]^-")); [left; reflexivity|exact Hl]].
      change (lit "-" ++ spell hi ++ T) with (45 :: spell hi ++ T). change (45 =? 45) with true. cbv iota.
      rewrite (rd_spell (lit "\]^-") hi T (or_introl eq_refl) Hh). destruct (spell_head (lit "\]^-") hi T (or_introl eq_refl) Hh) as (e & u & E' & N92). rewrite E'. destruct (N.eqb_spec e 93) as [->|]; [exfalso; cbn in N92; lia|]. cbn [pbind].
      destruct (N.ltb_spec (code hi) (code lo)); [lia|]. rewrite R. reflexivity.
    + apply Plainly. apply rd_class.
Qed.

(** single characters *)
Lemma p_single_escape g c i t : is_digit c = false -> escape_item c = POk i -> p_single g (92 :: c :: t) = POk (RSet false [i], true, t).
Proof. intros D E. unfold p_single. cbn. rewrite D, E. reflexivity. Qed.
Lemma p_single_leaf g a t : leaf_ok a -> p_single g (leaf_text a ++ t) = POk (leaf_regex a, true, t).
Proof.
  intros H. destruct a as [|x|k neg|neg l dash]; cbn [leaf_ok leaf_text leaf_regex] in *.
  - reflexivity.
  - destruct x as [c|c|l c]; cbn [spelling_ok spell code app] in *.
    + cbn in H. unfold p_single. repeat match goal with |- context [c =? ?k] => destruct (N.eqb_spec c k); [exfalso; lia|] end. reflexivity.
    + destruct (escaped_escape c H). apply p_single_escape; assumption.
    + destruct (named_escape l c H). apply p_single_escape; assumption.
  - destruct (class_escape k neg) as (c & E & F & D). rewrite E. cbn [app]. apply p_single_escape; assumption.
  - destruct H as [OK NE]. unfold p_single. rewrite <- !app_assoc. change (lit "[" ++ ?z) with (91 :: z). cbn [app]. change (91 =? 46) with false. change (91 =? 94) with false. change (91 =? 36) with false. change (91 =? 91) with true. cbv iota.
    assert (Lc : (length l + (if dash then 1 else 0) < length (concat (map member_text l) ++ (if dash then lit "-" else []) ++ lit "]" ++ t))%nat).
    { rewrite !app_length. assert (G : forall l, (forall m, In m l -> member_ok m) -> (length l <= length (concat (map member_text l)))%nat).
      { clear. induction l as [|m l IH]; intros OK; [cbn; lia|]. cbn [map concat length]. rewrite app_length. pose proof (IH (fun m' H => OK m' (or_intror H))). destruct (member_head m [] (OK m (or_introl eq_refl))) as (c & r & E & _). rewrite app_nil_r in E. rewrite E. cbn [length]. lia. }
      pose proof (G l OK). destruct dash; cbn; lia. }
    destruct neg.
    + change (lit "^" ++ ?z) with (94 :: z). change (94 =? 94) with true. cbv iota. change (lit "]" ++ t) with (93 :: t) in *. rewrite p_set_members; [reflexivity|exact OK|intros _; exact NE|]. cbn [app length] in *. lia.
    + change ([] ++ ?z) with z. change (lit "]" ++ t) with (93 :: t) in *.
      assert (Hd : exists d s2, concat (map member_text l) ++ (if dash then lit "-" else []) ++ 93 :: t = d :: s2 /\ d <> 94).
      { destruct l as [|m l]; [destruct dash; [exists 45, (93 :: t); split; [reflexivity|discriminate]|destruct NE as [K|K]; [contradiction|discriminate K]]|]. cbn [map concat]. rewrite <- app_assoc. destruct (member_head m (concat (map member_text l) ++ (if dash then lit "-" else []) ++ 93 :: t) (OK m (or_introl eq_refl))) as (d & u & E' & _ & _ & D). exists d, u. auto. }
      destruct Hd as (d & s2 & E & D94). pose proof (p_set_members l dash t (length (d :: s2)) true OK (fun _ => NE)) as R. rewrite E in *. destruct (N.eqb_spec d 94); [contradiction|]. rewrite R; [reflexivity|exact Lc].
Qed.

(** quantifiers *)
Definition calm (s : pystr) : Prop := match s with [] => True | c :: _ => c <> 42 /\ c <> 43 /\ c <> 63 /\ c <> 123 end.
Lemma calm_quant s : calm s -> p_quant s = None.
Proof. destruct s as [|c s]; cbn [calm p_quant]; [reflexivity|]. intros (A & B & C & D). repeat match goal with |- context [c =? ?k] => destruct (N.eqb_spec c k); [contradiction|] end. reflexivity. Qed.
Lemma count_exactly n rest : p_count (count n ++ lit "}" ++ rest) = Some (n, Some n, rest).
Proof.
  unfold p_count, count. destruct (digits_head (N.of_nat n)) as (c & s & E & C).
  assert (S1 : forall t, startswith (lit "}") (digits_of (N.of_nat n) ++ t) = false) by (intros t; rewrite E; cbn [app lit startswith]; cbn; unfold is_digit in C; destruct c; [reflexivity|]; destruct (N.eqb_spec 125 (N.pos p)); [lia|]; cbn in *; lia).
  rewrite S1. rewrite span_all; [|apply digits_of_all|reflexivity]. change (lit "}" ++ rest) with (125 :: rest). change (125 =? 44) with false. change (125 =? 125) with true. cbv iota. rewrite val_digits_of, Nat2N.id. rewrite E. reflexivity.
Qed.
Lemma count_atmost n rest : p_count (lit "," ++ count n ++ lit "}" ++ rest) = Some (0%nat, Some n, rest).
Proof.
  unfold p_count, count. change (startswith (lit "}") (lit "," ++ ?z)) with false. cbv iota. change (span_digits (lit "," ++ ?z)) with (@nil N, 44 :: z). cbv beta iota. change (44 =? 44) with true. cbv iota.
  rewrite span_all; [|apply digits_of_all|reflexivity]. change (lit "}" ++ rest) with (125 :: rest). change (125 =? 125) with true. cbv iota. rewrite val_digits_of, Nat2N.id. destruct (digits_head (N.of_nat n)) as (c & s & E & C). rewrite E. reflexivity.
Qed.
Lemma p_repeat_of r lo hi s t (lazy : bool) : p_quant s = Some (lo, hi, (if lazy then lit "?" else []) ++ t) -> match hi with Some h => (lo <= h)%nat | None => True end -> calm t ->
  p_repeat r true s = POk (RRep r lo (option_map (fun h => h - lo)%nat hi), t).
Proof.
  intros Q O C. unfold p_repeat. rewrite Q. assert (X : match hi with Some h => (h <? lo)%nat | None => false end = false) by (destruct hi; [apply Nat.ltb_ge; exact O|reflexivity]). rewrite X. cbn [negb].
  destruct lazy; [reflexivity|]. cbn [app]. destruct t as [|c t]; [reflexivity|]. cbn [calm] in C. destruct (N.eqb_spec c 43); [lia|]. destruct (N.eqb_spec c 63); [lia|]. reflexivity.
Qed.
Lemma p_repeat_quant r q t : quant_ok q -> calm t -> p_repeat r true (quant_text q ++ t) = POk (quant_regex q r, t).
Proof.
  intros OK C. destruct q as [[q lazy]|]; [|cbn [quant_text app quant_regex]; unfold p_repeat; rewrite (calm_quant t C); reflexivity].
  cbn [quant_text quant_regex quant_ok] in *. rewrite <- app_assoc. set (tail := (if lazy then lit "?" else []) ++ t).
  destruct q as [| | |n|n|n|n m].
  - rewrite (p_repeat_of r 0 None _ t lazy); [reflexivity|reflexivity|exact I|exact C].
  - rewrite (p_repeat_of r 1 None _ t lazy); [reflexivity|reflexivity|exact I|exact C].
  - rewrite (p_repeat_of r 0 (Some 1%nat) _ t lazy); [reflexivity|reflexivity|lia|exact C].
  - rewrite (p_repeat_of r n (Some n) _ t lazy); [cbn [option_map]; rewrite Nat.sub_diag; reflexivity| |lia|exact C]. rewrite <- !app_assoc. change (p_quant (lit "{" ++ ?z)) with (p_count z). apply count_exactly.
  - rewrite (p_repeat_of r n None _ t lazy); [reflexivity| |exact I|exact C]. rewrite <- !app_assoc. change (p_quant (lit "{" ++ ?z)) with (p_count z). exact (p_count_text n None tail).
  - rewrite (p_repeat_of r 0 (Some n) _ t lazy); [cbn [option_map]; rewrite Nat.sub_0_r; reflexivity| |lia|exact C]. rewrite <- !app_assoc. change (p_quant (lit "{," ++ ?z)) with (p_count (lit "," ++ z)). apply count_atmost.
  - rewrite (p_repeat_of r n (Some m) _ t lazy); [reflexivity| |exact OK|exact C]. rewrite <- !app_assoc. change (p_quant (lit "{" ++ ?z)) with (p_count z). pose proof (p_count_text n (Some (m - n)%nat) tail) as R. cbn [option_map] in R. replace (n + (m - n))%nat with m in R by lia. exact R.
Qed.

(** alternatives, sequences and groups *)
Scheme alts_mut := Induction for alts Sort Prop with branch_mut := Induction for branch Sort Prop with piece_mut := Induction for piece Sort Prop.
Combined Scheme syntax_ind from alts_mut, branch_mut, piece_mut.
Definition closed (s : pystr) : Prop := match s with [] => True | c :: _ => c = 41 end.
Definition stop (s : pystr) : Prop := match s with [] => True | c :: _ => c = 41 \/ c = 124 end.
Lemma stop_calm s : stop s -> calm s. Proof. destruct s as [|c s]; cbn; [tauto|lia]. Qed.
Lemma leaf_head a t : leaf_ok a -> exists c r, leaf_text a ++ t = c :: r /\ c <> 40 /\ c <> 41 /\ c <> 124 /\ c <> 63 /\ c <> 42 /\ c <> 43 /\ c <> 123.
Proof.
  intros H. destruct a as [|x|k neg|neg l dash]; cbn [leaf_ok leaf_text] in *.
  - exists 46, t. split; [reflexivity|lia].
  - destruct (spell_head (lit "\.^$*+?{[|()") x t (or_introl eq_refl) H) as (c & r & E & N92). exists c, r. split; [exact E|]. cbn in N92. lia.
  - destruct (class_escape k neg) as (c & E & _). rewrite E. exists 92, (c :: t). split; [reflexivity|lia].
  - rewrite <- app_assoc. eexists 91, _. split; [reflexivity|lia].
Qed.
Lemma piece_head p t : piece_ok p -> exists c r, piece_text p ++ t = c :: r /\ c <> 41 /\ c <> 124 /\ c <> 63 /\ c <> 42 /\ c <> 43 /\ c <> 123.
Proof.
  destruct p as [a q| | |cap a q]; cbn [piece_ok piece_text]; intros H.
  - rewrite <- app_assoc. destruct (leaf_head a (quant_text q ++ t) (proj1 H)) as (c & r & E & X). exists c, r. split; [exact E|tauto].
  - eexists 94, _. split; [reflexivity|lia].
  - eexists 36, _. split; [reflexivity|lia].
  - destruct cap; eexists 40, _; (split; [reflexivity|lia]).
Qed.
Lemma branch_calm b t : branch_ok b -> calm t -> calm (branch_text b ++ t).
Proof. destruct b as [|p b]; cbn [branch_ok branch_text]; intros H C; [exact C|]. rewrite <- app_assoc. destruct (piece_head p (branch_text b ++ t) (proj1 H)) as (c & r & E & X). rewrite E. cbn. tauto. Qed.
Lemma alts_no_qmark a t : alts_ok a -> closed t -> startswith (lit "?") (alts_text a ++ t) = false.
Proof.
  assert (G : forall s, match s with [] => True | c :: _ => c <> 63 end -> startswith (lit "?") s = false).
  { intros [|c s] H; [reflexivity|]. change (lit "?") with [63]. cbn [startswith]. destruct (N.eqb_spec 63 c); [congruence|reflexivity]. }
  assert (B : forall b t, branch_ok b -> match t with [] => True | c :: _ => c <> 63 end -> match branch_text b ++ t with [] => True | c :: _ => c <> 63 end).
  { intros b u H C. destruct b as [|p b]; cbn [branch_ok branch_text] in *; [exact C|]. rewrite <- app_assoc. destruct (piece_head p (branch_text b ++ u) (proj1 H)) as (c & r & E & X). rewrite E. lia. }
  intros H C. apply G. destruct a as [b|b a]; cbn [alts_ok alts_text] in *.
  - apply B; [exact H|]. destruct t as [|c t]; cbn in *; [exact I|lia].
  - rewrite <- !app_assoc. apply B; [tauto|]. cbn. lia.
Qed.
Lemma seq_end n g s : (1 <= n)%nat -> stop s -> p_seq n g s = POk (REps, s, g).
Proof. intros L H. destruct n as [|n]; [lia|]. destruct s as [|c s]; [reflexivity|]. cbn [p_seq stop] in *. destruct H as [-> | ->]; reflexivity. Qed.
Lemma syntax_parses :
  (forall a, alts_ok a -> forall n g t, (3 * length (alts_text a) + 2 <= n)%nat -> closed t -> exists g', p_alt n g (alts_text a ++ t) = POk (alts_regex a, t, g')) /\
  (forall b, branch_ok b -> forall n g t, (3 * length (branch_text b) + 1 <= n)%nat -> stop t -> exists g', p_seq n g (branch_text b ++ t) = POk (branch_regex b, t, g')) /\
  (forall p, piece_ok p -> forall n g t, (3 * length (piece_text p) <= n)%nat -> calm t ->
     exists c s' g', piece_text p ++ t = c :: s' /\ c <> 41 /\ c <> 124 /\
       (if c =? 40 then p_group n g s' else do (a, rep, t) <- p_single g (c :: s'); do (a, t) <- p_repeat a rep t; POk (a, t, g)) = POk (piece_regex p, t, g')).
Proof.
  apply syntax_ind.
  - intros b IH OK n g t L C. cbn [alts_ok alts_text alts_regex] in *. destruct n as [|n]; [lia|]. destruct (IH OK n g t ltac:(lia)) as (g' & E); [destruct t; [exact I|left; exact C]|]. exists g'. cbn [p_alt]. rewrite E. cbn [pbind]. destruct t as [|c t]; [reflexivity|]. cbn in C. subst c. reflexivity.
  - intros b IHb a IHa [OKb OKa] n g t L C. cbn [alts_text alts_regex] in *. rewrite !app_length in L. change (length (lit "|")) with 1%nat in L. destruct n as [|n]; [lia|].
    destruct (IHb OKb n g (lit "|" ++ alts_text a ++ t) ltac:(lia) (or_intror eq_refl)) as (g1 & E1). destruct (IHa OKa n g1 t ltac:(lia) C) as (g2 & E2). exists g2. rewrite <- !app_assoc. cbn [p_alt]. rewrite E1. cbn [pbind]. change (lit "|" ++ alts_text a ++ t) with (124 :: alts_text a ++ t). change (124 =? 124) with true. cbv iota. rewrite E2. reflexivity.
  - intros _ n g t L S. exists g. cbn [branch_text app]. apply seq_end; [cbn in L; lia|exact S].
  - intros p IHp b IHb [OKp OKb] n g t L S. cbn [branch_text branch_regex] in *. rewrite app_length in L. destruct n as [|n]; [lia|]. rewrite <- app_assoc.
    assert (Lp : (1 <= length (piece_text p))%nat) by (destruct (piece_head p [] OKp) as (c & r & E & _); rewrite app_nil_r in E; rewrite E; cbn; lia).
    destruct (IHp OKp n g (branch_text b ++ t) ltac:(lia) (branch_calm b t OKb (stop_calm t S))) as (c & s' & g1 & E & C41 & C124 & P). destruct (IHb OKb n g1 t ltac:(lia) S) as (g2 & E2). exists g2. rewrite E. cbn [p_seq]. destruct (N.eqb_spec c 124); [contradiction|]. destruct (N.eqb_spec c 41); [contradiction|]. cbn [orb]. rewrite P. cbn [pbind]. rewrite E2. reflexivity.
  - intros a q [OKa OKq] n g t L C. cbn [piece_text piece_regex] in *. rewrite <- app_assoc. destruct (leaf_head a (quant_text q ++ t) OKa) as (c & r & E & X). exists c, r, g. split; [exact E|]. split; [tauto|]. split; [tauto|]. rewrite <- E. destruct (N.eqb_spec c 40); [lia|]. rewrite (p_single_leaf g a _ OKa). cbn [pbind]. rewrite (p_repeat_quant _ q t OKq C). reflexivity.
  - intros _ n g t L C. exists 94, t, g. split; [reflexivity|]. split; [discriminate|]. split; [discriminate|]. change (94 =? 40) with false. cbv iota. change (p_single g (94 :: t)) with (POk (RBol, false, t)). cbn [pbind]. unfold p_repeat. rewrite (calm_quant t C). reflexivity.
  - intros _ n g t L C. exists 36, t, g. split; [reflexivity|]. split; [discriminate|]. split; [discriminate|]. change (36 =? 40) with false. cbv iota. change (p_single g (36 :: t)) with (POk (REol, false, t)). cbn [pbind]. unfold p_repeat. rewrite (calm_quant t C). reflexivity.
  - intros cap a IH q [OKa OKq] n g t L C. cbn [piece_text piece_regex] in *. rewrite !app_length in L. change (length (lit ")")) with 1%nat in L. assert (Lc : (1 <= length (if cap then lit "(" else lit "(?:"))%nat) by (destruct cap; cbn; lia).
    destruct n as [|n]; [lia|].
    set (g0 := if cap then (fst g + 1, fst g + 1 :: snd g) else g). destruct (IH OKa n g0 (lit ")" ++ quant_text q ++ t) ltac:(lia) eq_refl) as (g1 & E). exists 40, ((if cap then [] else lit "?:") ++ alts_text a ++ lit ")" ++ quant_text q ++ t), (fst g1, snd g).
    split; [rewrite <- !app_assoc; destruct cap; reflexivity|]. split; [discriminate|]. split; [discriminate|]. change (40 =? 40) with true. cbv iota. cbn [p_group].
    assert (X : startswith (lit "?") ((if cap then [] else lit "?:") ++ alts_text a ++ lit ")" ++ quant_text q ++ t) = negb cap) by (destruct cap; [apply (alts_no_qmark a (lit ")" ++ quant_text q ++ t) OKa eq_refl)|reflexivity]). rewrite X.
    destruct cap; cbn [negb andb app].
    + fold g0. rewrite E. cbn [pbind]. change (lit ")" ++ quant_text q ++ t) with (41 :: quant_text q ++ t). change (41 =? 41) with true. cbv iota. rewrite (p_repeat_quant _ q t OKq C). reflexivity.
    + change (startswith (lit "?:") (lit "?:" ++ ?z)) with true. change (skipn 2 (lit "?:" ++ ?z)) with z. cbn [negb]. cbv iota. fold g0. rewrite E. cbn [pbind]. change (lit ")" ++ quant_text q ++ t) with (41 :: quant_text q ++ t). change (41 =? 41) with true. cbv iota. rewrite (p_repeat_quant _ q t OKq C). reflexivity.
Qed.
Theorem notation_compiles a : alts_ok a -> re_compile (alts_text a) = POk (alts_regex a).
Proof. intros OK. unfold re_compile. destruct (proj1 syntax_parses a OK (3 * length (alts_text a) + 3)%nat (0, []) [] ltac:(lia) I) as (g' & E). rewrite app_nil_r in E. rewrite E. reflexivity. Qed.
