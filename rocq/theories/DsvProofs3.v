(** Proofs about Dsv, continued: line numbers, dict rows, header rows,
    rewrite/add_rows/filter. *)
From Verif Require Import PyStr PyCsv PyCsvProofs PyCsvRound Dsv DsvSpec DsvProofs DsvProofs2.

(** ** C05 line numbers *)
Definition nonl (s : pystr) : bool := forallb (fun c => negb (is_nl c)) s.

Inductive good_lines : list pystr -> Prop :=
| gl_nil : good_lines []
| gl_last b : nonl b = true -> b <> [] -> good_lines [b]
| gl_lf b ls : nonl b = true -> good_lines ls -> good_lines ((b ++ [LF]) :: ls)
| gl_crlf b ls : nonl b = true -> good_lines ls -> good_lines ((b ++ [CR; LF]) :: ls).

Lemma lines_aux_good n t cur : (length t <= n)%nat ->
  only_lf_or_crlf t = true -> nonl cur = true -> good_lines (lines_aux cur t).
Proof.
  revert t cur; induction n as [|n IH]; intros t cur Hn Ht Hcur.
  - destruct t; [|cbn in Hn; lia]. cbn. destruct cur; [constructor|]. apply gl_last; [exact Hcur|discriminate].
  - destruct t as [|c t']; [apply (IH [] cur); auto; cbn; lia|].
    cbn [only_lf_or_crlf] in Ht. apply andb_true_iff in Ht; destruct Ht as [Hc Ht].
    cbn [length] in Hn. cbn [lines_aux].
    destruct (c =? LF) eqn:E1.
    + apply N.eqb_eq in E1; subst c. apply gl_lf; [exact Hcur|]. apply IH; [lia|exact Ht|reflexivity].
    + destruct (c =? CR) eqn:E2.
      * apply N.eqb_eq in E2; subst c. destruct t' as [|c2 t'']; [discriminate|].
        rewrite Hc. apply N.eqb_eq in Hc; subst c2. apply gl_crlf; [exact Hcur|].
        cbn [only_lf_or_crlf] in Ht. apply andb_true_iff in Ht; destruct Ht as [_ Ht].
        apply IH; [cbn [length] in Hn; lia|exact Ht|reflexivity].
      * apply IH; [lia|exact Ht|]. unfold nonl in *. rewrite forallb_app, Hcur. cbn.
        unfold is_nl; rewrite E1, E2; reflexivity.
Qed.

(** line feeds stored in the record being parsed *)
Definition nlc (p : pst) : nat := (newlines_in (fields p) + count_char LF (field p))%nat.

Lemma newlines_app a b : newlines_in (a ++ b) = (newlines_in a + newlines_in b)%nat.
Proof. unfold newlines_in. rewrite concat_app, filter_app, app_length; reflexivity. Qed.
Lemma newlines_one s : newlines_in [s] = count_char LF s.
Proof. unfold newlines_in, count_char. cbn [concat]. rewrite app_nil_r; reflexivity. Qed.

Definition sane_state (p : pst) : Prop :=
  match rst p with
  | ESCAPED_CHAR | AFTER_ESCAPED_CRNL | ESCAPE_IN_QUOTED_FIELD => False
  | START_RECORD | EAT_CRNL => field p = []
  | _ => True
  end.

Lemma save_nlc p s p' : save_field p s = Ok p' -> nlc p' = nlc p /\ rst p' = s /\ field p' = [].
Proof.
  unfold save_field; intros E; injection E as <-. unfold nlc; cbn [fields field rst].
  rewrite newlines_app, newlines_one. cbn. repeat split; lia.
Qed.
Lemma add_nlc f p c s p' : add_char f p c s = Ok p' ->
  nlc p' = (nlc p + if N.eqb LF c then 1 else 0)%nat /\ rst p' = s.
Proof.
  unfold add_char. destruct (_ <? _); [|discriminate]. intros E; injection E as <-.
  unfold nlc; cbn [fields field rst]. rewrite count_char_app. unfold count_char at 2; cbn [filter].
  destruct (N.eqb LF c); cbn; split; lia || reflexivity.
Qed.
Lemma goto_nlc p s p' : goto p s = Ok p' -> nlc p' = nlc p /\ rst p' = s /\ field p' = field p.
Proof. unfold goto; intros E; injection E as <-; repeat split. Qed.

Lemma nl_LF c : is_nl c = false -> N.eqb LF c = false.
Proof.
  unfold is_nl; intros H; apply orb_false_iff in H; destruct H as [H _]. rewrite N.eqb_sym; exact H.
Qed.

Ltac step_case H :=
  first [ apply save_nlc in H; destruct H as (?H1 & ?H2 & ?H3)
        | apply goto_nlc in H; destruct H as (?H1 & ?H2 & ?H3)
        | apply add_nlc in H; destruct H as (?H1 & ?H2) ].

(** a character that is no line break *)
Lemma step_plain f p c p' :
  escapechar f = None -> (forall q, quotechar f = Some q -> is_nl q = false) ->
  sane_state p -> is_nl c = false -> step f p (TC c) = Ok p' ->
  nlc p' = nlc p /\ sane_state p'.
Proof.
  intros He Hq Hs Hc H. destruct p as [s fl fs]. unfold step in H; cbn [rst] in H.
  assert (Hlf := nl_LF c Hc). unfold sane_state in *. cbn [rst field] in Hs.
  destruct s; try contradiction; unfold do_start_field, do_in_field in H; rewrite ?Hc, ?He in H; cbn [is_oc] in H;
    repeat match type of H with
           | context [if ?b then _ else _] => destruct b eqn:?
           end; try discriminate; step_case H;
    repeat match goal with H : rst p' = _ |- _ => rewrite H in * end;
    rewrite ?Hlf in *; cbn [rst field] in *;
    split; try exact I; try lia; try assumption.
Qed.

Lemma steps_plain f b p p' :
  escapechar f = None -> (forall q, quotechar f = Some q -> is_nl q = false) ->
  nonl b = true -> sane_state p -> steps f p (map TC b) = Ok p' ->
  nlc p' = nlc p /\ sane_state p'.
Proof.
  intros He Hq; revert p; induction b as [|c b IH]; intros p Hb Hs H; cbn [map steps] in H.
  - injection H as <-; split; [reflexivity|exact Hs].
  - cbn [nonl forallb] in Hb. apply andb_true_iff in Hb; destruct Hb as [Hc Hb].
    apply negb_true_iff in Hc.
    destruct (step f p (TC c)) as [p1|] eqn:E1; cbn [bind] in H; [|discriminate].
    destruct (step_plain f p c p1 He Hq Hs Hc E1) as [K1 K2].
    destruct (IH p1 Hb K2 H) as [K3 K4]. split; [lia|exact K4].
Qed.

Lemma steps_app f p a b : steps f p (a ++ b) = (p1 <- steps f p a ;; steps f p1 b).
Proof.
  revert p; induction a as [|t a IH]; intros p; cbn [app steps bind]; [reflexivity|].
  destruct (step f p t); cbn [bind]; [apply IH|reflexivity].
Qed.

(** the end of a line *)
Lemma step_eol f p p' :
  escapechar f = None -> sane_state p -> step f p EOL = Ok p' ->
  (rst p = IN_QUOTED_FIELD /\ p' = p) \/
  (rst p <> IN_QUOTED_FIELD /\ rst p' = START_RECORD /\ newlines_in (fields p') = nlc p).
Proof.
  intros He Hs H. destruct p as [s fl fs]. unfold step in H; cbn [rst] in H. unfold sane_state in Hs; cbn [rst field] in Hs.
  destruct s; try contradiction; unfold do_start_field, do_in_field in H.
  - injection H as <-. right. split; [discriminate|]. cbn. split; [reflexivity|]. unfold nlc; cbn. rewrite Hs; cbn; lia.
  - right. split; [discriminate|]. apply save_nlc in H; destruct H as (H1 & H2 & H3). split; [exact H2|].
    unfold nlc in H1; rewrite H3 in H1; cbn in H1 |- *. unfold nlc; cbn. lia.
  - right. split; [discriminate|]. apply save_nlc in H; destruct H as (H1 & H2 & H3). split; [exact H2|].
    unfold nlc in H1; rewrite H3 in H1; cbn in H1 |- *. unfold nlc; cbn. lia.
  - injection H as <-. left; split; reflexivity.
  - right. split; [discriminate|]. apply save_nlc in H; destruct H as (H1 & H2 & H3). split; [exact H2|].
    unfold nlc in H1; rewrite H3 in H1; cbn in H1 |- *. unfold nlc; cbn. lia.
  - right. split; [discriminate|]. apply goto_nlc in H; destruct H as (H1 & H2 & H3). split; [exact H2|].
    unfold nlc in H1; rewrite H3 in H1; cbn in H1 |- *. unfold nlc; cbn. rewrite Hs in *; cbn in *. lia.
Qed.

Lemma step_nl f p c p' :
  escapechar f = None -> (forall q, quotechar f = Some q -> is_nl q = false) ->
  is_nl (delim f) = false ->
  sane_state p -> is_nl c = true -> step f p (TC c) = Ok p' ->
  sane_state p' /\
  ((rst p = IN_QUOTED_FIELD /\ rst p' = IN_QUOTED_FIELD /\ nlc p' = (nlc p + if N.eqb LF c then 1 else 0)%nat)
   \/ (rst p <> IN_QUOTED_FIELD /\ rst p' = EAT_CRNL /\ nlc p' = nlc p)).
Proof.
  intros He Hq Hd Hs Hc H. destruct p as [s fl fs]. unfold step in H; cbn [rst] in H.
  assert (Hqc : is_oc (quotechar f) c = false).
  { apply is_oc_false; intros E; rewrite (Hq _ E) in Hc; discriminate. }
  assert (Hdc : c =? delim f = false).
  { apply N.eqb_neq; intros E; subst c; rewrite Hd in Hc; discriminate. }
  unfold sane_state in *; cbn [rst field] in *.
  destruct s; try contradiction; unfold do_start_field, do_in_field in H; rewrite ?Hc, ?He, ?Hqc, ?Hdc in H;
    cbn [is_oc andb] in H; rewrite ?andb_false_r in H.
  - step_case H. repeat match goal with E : rst p' = _ |- _ => rewrite E end.
    cbn in *. split; [congruence|right; repeat split; congruence].
  - step_case H. repeat match goal with E : rst p' = _ |- _ => rewrite E end.
    cbn in *. split; [assumption|right; repeat split; congruence].
  - step_case H. repeat match goal with E : rst p' = _ |- _ => rewrite E end.
    cbn in *. split; [assumption|right; repeat split; congruence].
  - step_case H. repeat match goal with E : rst p' = _ |- _ => rewrite E end.
    cbn -[N.eqb] in *. split; [exact I|left; repeat split; assumption].
  - step_case H. repeat match goal with E : rst p' = _ |- _ => rewrite E end.
    cbn in *. split; [assumption|right; repeat split; congruence].
  - injection H as <-. cbn. split; [assumption|right; repeat split; congruence].
Qed.

(** a terminated line *)
Lemma line_lf f p b term p' :
  escapechar f = None -> (forall q, quotechar f = Some q -> is_nl q = false) ->
  is_nl (delim f) = false ->
  nonl b = true -> (term = [LF] \/ term = [CR; LF]) ->
  sane_state p -> steps f p (map TC (b ++ term) ++ [EOL]) = Ok p' ->
  (rst p' = START_RECORD /\ newlines_in (fields p') = nlc p)
  \/ (rst p' = IN_QUOTED_FIELD /\ nlc p' = S (nlc p) /\ sane_state p').
Proof.
  intros He Hq Hd Hb Ht Hs H. rewrite map_app, <- app_assoc, steps_app in H.
  destruct (steps f p (map TC b)) as [p1|] eqn:E1; cbn [bind] in H; [|discriminate].
  destruct (steps_plain f b p p1 He Hq Hb Hs E1) as [K1 K2].
  destruct Ht as [-> | ->]; cbn [map app steps] in H.
  - destruct (step f p1 (TC LF)) as [p2|] eqn:E2; cbn [bind] in H; [|discriminate].
    destruct (step_nl f p1 LF p2 He Hq Hd K2 eq_refl E2) as [L1 L2].
    destruct (step f p2 EOL) as [p3|] eqn:E3; cbn [bind] in H; [|discriminate]. injection H as <-.
    destruct (step_eol f p2 p3 He L1 E3) as [[M1 ->]|(M1 & M2 & M3)].
    + right. destruct L2 as [(A & B & C)|(A & B & C)]; [|congruence]. change (N.eqb LF LF) with true in C. cbn iota in C.
      repeat split; try assumption. lia.
    + left. destruct L2 as [(A & B & C)|(A & B & C)]; [congruence|]. split; [assumption|lia].
  - destruct (step f p1 (TC CR)) as [p1'|] eqn:E1'; cbn [bind] in H; [|discriminate].
    destruct (step_nl f p1 CR p1' He Hq Hd K2 eq_refl E1') as [L1' L2'].
    destruct (step f p1' (TC LF)) as [p2|] eqn:E2; cbn [bind] in H; [|discriminate].
    destruct (step_nl f p1' LF p2 He Hq Hd L1' eq_refl E2) as [L1 L2].
    destruct (step f p2 EOL) as [p3|] eqn:E3; cbn [bind] in H; [|discriminate]. injection H as <-.
    change (N.eqb LF CR) with false in L2'. change (N.eqb LF LF) with true in L2. cbn iota in L2, L2'.
    destruct (step_eol f p2 p3 He L1 E3) as [[M1 ->]|(M1 & M2 & M3)].
    + right. destruct L2 as [(A & B & C)|(A & B & C)]; [|congruence].
      destruct L2' as [(A' & B' & C')|(A' & B' & C')]; [|congruence].
      repeat split; try assumption. lia.
    + left. split; [assumption|].
      destruct L2 as [(A & B & C)|(A & B & C)]; [congruence|].
      destruct L2' as [(A' & B' & C')|(A' & B' & C')]; [congruence|]. lia.
Qed.

Lemma endswith_snoc a c : endswith [c] (a ++ [c]) = true.
Proof. unfold endswith. rewrite rev_app_distr. cbn. rewrite N.eqb_refl; reflexivity. Qed.
Lemma endswith_lf_nonl b : nonl b = true -> endswith [LF] b = false.
Proof.
  unfold endswith. destruct b as [|c b] using rev_ind; [reflexivity|]. clear IHb.
  unfold nonl. rewrite forallb_app; cbn [forallb]. intros H; apply andb_true_iff in H; destruct H as [_ H].
  rewrite andb_true_r in H. apply negb_true_iff in H. apply nl_LF in H.
  rewrite rev_app_distr. cbn [rev app startswith]. rewrite H; reflexivity.
Qed.

Lemma numbering f ls :
  escapechar f = None -> (forall q, quotechar f = Some q -> is_nl q = false) ->
  is_nl (delim f) = false -> good_lines ls ->
  forall p k lf, sane_state p ->
  ((nlc p = 0)%nat -> rst p = START_RECORD \/ lf = true \/ ls = []) ->
  forall start, (start + nlc p + (if lf || (match rst p with START_RECORD => true | _ => false end) then 0 else 1) = k)%nat ->
  (lf = false -> rst p <> START_RECORD -> ls = []) ->
  map (fun x => (S (fst x), snd x)) (number_rows start (fst (read_lines f p ls))) = read_lines_num f p k lf ls.
Proof.
  intros He Hq Hd Hg. induction Hg as [|b Hb Hne|b ls Hb Hg IH|b ls Hb Hg IH]; intros p k lf Hs H0 start Hk Hlast.
  - cbn [read_lines read_lines_num].
    destruct (negb _ || _) eqn:E; [|reflexivity].
    destruct (strict f); cbn [negb andb]; [reflexivity|].
    cbn [fst number_rows map]. rewrite newlines_app, newlines_one. fold (nlc p).
    assert (Hr : rst p <> START_RECORD).
    { intros Er. unfold sane_state in Hs. rewrite Er in Hs, E. rewrite Hs in E. discriminate. }
    f_equal. f_equal. destruct (rst p); try congruence; destruct lf; cbn in Hk |- *; lia.
  - cbn [read_lines read_lines_num].
    rewrite steps_app.
    destruct (steps f p (map TC b)) as [p1|] eqn:E1; cbn [bind]; [|reflexivity].
    destruct (steps_plain f b p p1 He Hq Hb Hs E1) as [K1 K2]. cbn [steps].
    destruct (step f p1 EOL) as [p2|] eqn:E2; cbn [bind]; [|reflexivity].
    assert (Hst : (start + nlc p = k)%nat).
    { destruct lf; cbn in Hk; [lia|]. destruct (rst p) eqn:Er; cbn in Hk; try lia;
      (exfalso; assert (Hl : [b] = []) by (apply Hlast; congruence); discriminate). }
    destruct (step_eol f p1 p2 He K2 E2) as [[M1 ->]|(M1 & M2 & M3)].
    + rewrite M1. rewrite endswith_lf_nonl by exact Hb.
      destruct (negb _ || true) eqn:E; [|reflexivity]. destruct (strict f); cbn [negb andb]; [reflexivity|].
      cbn [fst number_rows map]. rewrite newlines_app, newlines_one. fold (nlc p1). rewrite K1.
      f_equal. f_equal. lia.
    + rewrite M2. cbn [fst number_rows map snd read_lines]. rewrite M3, K1. cbn [read_lines_num p0 field rst negb orb andb].
      f_equal. f_equal. lia.
  - cbn [read_lines read_lines_num].
    destruct (steps f p (map TC (b ++ [LF]) ++ [EOL])) as [p2|] eqn:E2; [|reflexivity].
    assert (Hst : (start + nlc p = k)%nat).
    { destruct lf; cbn in Hk; [lia|]. destruct (rst p) eqn:Er; cbn in Hk; try lia;
      (exfalso; assert (Hl : (b ++ [LF]) :: ls = []) by (apply Hlast; congruence); discriminate). }
    rewrite endswith_snoc.
    destruct (line_lf f p b [LF] p2 He Hq Hd Hb (or_introl eq_refl) Hs E2) as [[A B]|(A & B & C)]; rewrite A.
    + cbn [fst snd number_rows map]. rewrite B. f_equal; [f_equal; lia|].
      apply IH; cbn; try reflexivity; try tauto; try lia; intros; congruence.
    + apply IH; cbn; try exact C; try tauto; try lia; intros; congruence.
  - cbn [read_lines read_lines_num].
    destruct (steps f p (map TC (b ++ [CR; LF]) ++ [EOL])) as [p2|] eqn:E2; [|reflexivity].
    assert (Hst : (start + nlc p = k)%nat).
    { destruct lf; cbn in Hk; [lia|]. destruct (rst p) eqn:Er; cbn in Hk; try lia;
      (exfalso; assert (Hl : (b ++ [CR; LF]) :: ls = []) by (apply Hlast; congruence); discriminate). }
    change (b ++ [CR; LF]) with (b ++ [CR] ++ [LF]). rewrite app_assoc, endswith_snoc.
    destruct (line_lf f p b [CR; LF] p2 He Hq Hd Hb (or_intror eq_refl) Hs E2) as [[A B]|(A & B & C)]; rewrite A.
    + cbn [fst snd number_rows map]. rewrite B. f_equal; [f_equal; lia|].
      apply IH; cbn; try reflexivity; try tauto; try lia; intros; congruence.
    + apply IH; cbn; try exact C; try tauto; try lia; intros; congruence.
Qed.

Theorem line_numbers lim d kw k f file text :
  effective_kw d kw = Ok k -> mk_fmt lim k = Ok f ->
  text = (if reader_strips_bom d then strip_bom file else file) ->
  escapechar f = None -> (forall q, quotechar f = Some q -> is_nl q = false) -> is_nl (delim f) = false ->
  only_lf_or_crlf text = true ->
  let ends := read_lines_num f p0 0 true (lines text) in
  match d with
  | None => exists e, reader_with_line_number lim None kw file = Ok (ends, e)
  | Some dd =>
      forall kept, Selected (fun lr => ~ row_is_dropped dd lr) (number_rows 0 (map snd ends)) kept ->
      (exists e, reader_with_line_number lim d kw file =
                 Ok (map (fun lr => (S (fst lr), presented dd (snd lr))) kept, e))
      /\ map (fun lr => (S (fst lr), snd lr)) (number_rows 0 (map snd ends)) = ends
  end.
Proof.
  intros Hk Hf Htext He Hq Hd Hlf ends.
  assert (Hnum : map (fun x => (S (fst x), snd x)) (number_rows 0 (fst (csv_read f text))) = ends).
  { unfold csv_read, csv_read_lines, ends. apply numbering; auto; cbn; try reflexivity; try tauto; try discriminate.
    apply (lines_aux_good (length text)); auto. }
  assert (Hrows : map snd ends = fst (csv_read f text)).
  { rewrite <- Hnum, map_map. cbn. apply number_rows_snd. }
  destruct d as [dd|]; unfold reader_with_line_number, reader_rows; rewrite Hk; cbn [bind]; rewrite Hf; cbn [bind];
    rewrite <- Htext.
  - intros kept Hkept. rewrite Hrows in Hkept. split.
    + exists (snd (csv_read f text)).
      destruct (reader_dialect_iteration dd _ kept _ Hkept (filter_Selected (recb dd) _ _ (recb_spec dd))) as [H1 _].
      rewrite H1, map_map. reflexivity.
    + rewrite Hrows, Hnum. reflexivity.
  - exists (snd (csv_read f text)). unfold reader_iter. change rd0 with {| next_line := 0; comments := [] |}.
    rewrite plain_loop_spec by lia. rewrite Hnum. reflexivity.
Qed.

(** the reported number, in terms of reading a part of the file: reading only
    the first [n] lines gives exactly the rows up to this one *)
Lemma read_lines_num_ge f ls : forall p k lf n row,
  In (n, row) (read_lines_num f p k lf ls) -> (k <= n)%nat.
Proof.
  induction ls as [|l ls IH]; intros p k lf n row H; cbn [read_lines_num] in H.
  - destruct (_ && _) in H; [|destruct H]. destruct H as [H|[]]. destruct lf; injection H as <- _; lia.
  - destruct (steps f p (map TC l ++ [EOL])) as [p'|]; [|destruct H].
    assert (Hlt : In (n, row) (read_lines_num f p' (S k) (endswith [LF] l) ls) -> (k <= n)%nat)
      by (intros Hin; apply IH in Hin; lia).
    destruct (rst p'); try (apply Hlt, H).
    destruct H as [H|H]; [injection H as <- _; lia|]. apply IH in H. lia.
Qed.
Lemma read_lines_num_rows f ls : forall p k lf,
  map snd (read_lines_num f p k lf ls) = fst (read_lines f p ls).
Proof.
  induction ls as [|l ls IH]; intros p k lf; cbn [read_lines_num read_lines].
  - destruct (negb _ || _); [|reflexivity]. destruct (strict f); reflexivity.
  - destruct (steps f p (map TC l ++ [EOL])) as [p'|]; [|reflexivity].
    destruct (rst p'); try apply IH. cbn [map snd fst]. rewrite IH; reflexivity.
Qed.
Lemma read_prefix f ls : forall p k lf i n row,
  nth_error (read_lines_num f p k lf ls) i = Some (n, row) ->
  read_lines f p (firstn (n - k) ls) = (firstn (S i) (fst (read_lines f p ls)), None).
Proof.
  induction ls as [|l ls IH]; intros p k lf i n row H.
  - rewrite firstn_nil. cbn [read_lines_num read_lines] in *. destruct (negb _ || _); cbn [andb] in H; [|destruct i; discriminate].
    destruct (strict f); cbn [negb andb] in H; [destruct i; discriminate|].
    destruct i as [|i]; [|destruct i; discriminate]. reflexivity.
  - assert (Hge : (k < n)%nat).
    { apply nth_error_In in H. cbn [read_lines_num] in H.
      destruct (steps f p (map TC l ++ [EOL])) as [p'|]; [|destruct H].
      destruct (rst p'); try (apply read_lines_num_ge in H; lia).
      destruct H as [H|H]; [injection H as <- _; lia|]. apply read_lines_num_ge in H; lia. }
    replace (n - k)%nat with (S (n - S k)) by lia. cbn [firstn read_lines read_lines_num] in *.
    destruct (steps f p (map TC l ++ [EOL])) as [p'|]; [|destruct i; discriminate].
    destruct (rst p'); try (apply (IH _ _ _ _ _ _ H)).
    destruct i as [|i]; cbn [nth_error] in H.
    + injection H as <- _. rewrite Nat.sub_diag. reflexivity.
    + rewrite (IH _ _ _ _ _ _ H). reflexivity.
Qed.
Theorem line_number_prefix f text i n row :
  nth_error (read_lines_num f p0 0 true (lines text)) i = Some (n, row) ->
  csv_read_lines f (firstn n (lines text)) = (firstn (S i) (fst (csv_read f text)), None)
  /\ nth_error (fst (csv_read f text)) i = Some row.
Proof.
  intros H. split.
  - apply read_prefix in H. rewrite Nat.sub_0_r in H. exact H.
  - unfold csv_read, csv_read_lines. rewrite <- (read_lines_num_rows f (lines text) p0 0 true).
    rewrite nth_error_map, H. reflexivity.
Qed.
