(** Proofs about Dsv, continued: dialect round trips and line numbers. *)
From Verif Require Import PyStr PyCsv PyCsvProofs PyCsvRound Dsv DsvSpec DsvProofs.

(** ** The csv format of a sane dialect *)
Definition dfmt (lim : N) (d : dialect) (dl q : N) (term : pystr) : fmt :=
  {| delim := dl; quotechar := Some q;
     escapechar := if d_doubleQuote d then None else Some 92;
     doublequote := d_doubleQuote d; skipinitialspace := d_skipInitialSpace d;
     lineterm := term; quotemode := QMinimal; strict := true; limit := lim |}.

Definition dkw (d : dialect) (term : pystr) : csv_kw :=
  {| k_delimiter := Some (d_delimiter d); k_doublequote := Some (d_doubleQuote d);
     k_escapechar := Some (if negb (d_doubleQuote d) then escape_character d else None);
     k_lineterminator := Some term; k_quotechar := Some (d_quoteChar d);
     k_skipinitialspace := Some (d_skipInitialSpace d); k_strict := Some true; k_quoting := None |}.

Lemma sane_kw d dl q term : sane_dialect d dl q term -> effective_kw (Some d) kw0 = Ok (dkw d term).
Proof.
  intros H. destruct (sd_term _ _ _ _ H) as [more Hm].
  unfold effective_kw, as_python_formatting_parameters. rewrite Hm. reflexivity.
Qed.
Lemma sane_fmt lim d dl q term : sane_dialect d dl q term -> mk_fmt lim (dkw d term) = Ok (dfmt lim d dl q term).
Proof.
  intros H. unfold mk_fmt, dkw, escape_character, dfmt. cbn [k_delimiter k_quotechar k_escapechar k_quoting k_doublequote
   k_skipinitialspace k_lineterminator k_strict getdef].
  rewrite (sd_delim _ _ _ _ H), (sd_quote _ _ _ _ H).
  destruct (d_doubleQuote d); reflexivity.
Qed.
Lemma nl_false c : no_linebreak_char c -> is_nl c = false.
Proof. intros [H1 H2]. unfold is_nl. apply N.eqb_neq in H1, H2. rewrite H1, H2; reflexivity. Qed.

Lemma sane_wf lim d dl q term :
  sane_dialect d dl q term -> (d_doubleQuote d = false -> dl <> 92 /\ q <> 92) ->
  wf_fmt (dfmt lim d dl q term).
Proof.
  intros H Hesc. constructor; cbn.
  - apply nl_false, (sd_nl1 _ _ _ _ H).
  - intros x E; injection E as <-. apply nl_false, (sd_nl2 _ _ _ _ H).
  - intros e E. destruct (d_doubleQuote d); [discriminate|]. injection E as <-; reflexivity.
  - intros x E; injection E as <-. intros E; symmetry in E; revert E. apply (sd_distinct _ _ _ _ H).
  - intros e E. destruct (d_doubleQuote d); [discriminate|]. injection E as <-.
    intros E; apply (proj1 (Hesc eq_refl)); symmetry; exact E.
  - intros x e E1 E. injection E1 as <-. destruct (d_doubleQuote d); [discriminate|]. injection E as <-.
    apply (proj2 (Hesc eq_refl)).
  - discriminate.
  - apply (sd_std _ _ _ _ H).
  - intros Hs. apply (sd_skip _ _ _ _ H Hs).
Qed.
Lemma sane_seps lim d dl q term :
  sane_dialect d dl q term -> seps_not_space (dfmt lim d dl q term).
Proof.
  intros H Hs. cbn in Hs. split.
  - intros e E. cbn in E. destruct (d_doubleQuote d); [discriminate|]. injection E as <-; discriminate.
  - intros x E. cbn in E. injection E as <-. apply (sd_skip _ _ _ _ H Hs).
Qed.

Lemma special_dfmt pv lim d dl q term c :
  sane_dialect d dl q term -> d_doubleQuote d = true ->
  quote_crlf pv = true \/ term = [CR; LF] ->
  special pv (dfmt lim d dl q term) c = (c =? dl) || (c =? q) || (c =? CR) || (c =? LF).
Proof.
  intros H Hdq Hnl. unfold special, dfmt; cbn [delim escapechar quotechar lineterm]. rewrite Hdq. cbn [is_oc].
  rewrite orb_false_r.
  assert (Hlt : char_mem c term || quote_crlf pv && ((c =? CR) || (c =? LF)) = (c =? CR) || (c =? LF)).
  { destruct Hnl as [Hq| ->].
    - rewrite Hq; cbn [andb].
      destruct (sd_std _ _ _ _ H) as [E|[E|E]]; subst term; unfold char_mem; cbn [existsb];
        destruct (c =? CR), (c =? LF); reflexivity.
    - unfold char_mem; cbn [existsb]. destruct (quote_crlf pv), (c =? CR), (c =? LF); reflexivity. }
  rewrite <- orb_assoc, Hlt. rewrite orb_assoc. reflexivity.
Qed.

Lemma wflag_dfmt pv lim d dl q term s :
  sane_dialect d dl q term -> d_doubleQuote d = true ->
  quote_crlf pv = true \/ term = [CR; LF] ->
  wflag pv (dfmt lim d dl q term) s = has_special dl q s.
Proof.
  intros H Hdq Hnl. unfold wflag.
  assert (Hb : exists t, wbody pv (dfmt lim d dl q term) s = Ok (t, has_special dl q s)).
  { induction s as [|c s [t IH]]; [eexists; reflexivity|].
    cbn [wbody has_special existsb]. rewrite IH.
    assert (Hc : exists t1, wchar pv (dfmt lim d dl q term) c = Ok (t1, (c =? dl) || (c =? q) || (c =? CR) || (c =? LF))).
    { unfold wchar. rewrite (special_dfmt pv lim d dl q term c H Hdq Hnl).
      destruct ((c =? dl) || (c =? q) || (c =? CR) || (c =? LF)); [|eexists; reflexivity].
      cbn [dfmt quotemode quotechar doublequote escapechar is_oc]. rewrite Hdq. cbn [is_oc andb].
      destruct (c =? q); eexists; reflexivity. }
    destruct Hc as [t1 ->]. cbn [bind fst snd]. eexists; reflexivity. }
  destruct Hb as [t ->]. reflexivity.
Qed.

Lemma src_cell_dq d term c : d_doubleQuote d = true -> src_cell (dkw d term) c = cell_text c.
Proof.
  intros H. unfold src_cell, escapedoubled, doubling, dkw; cbn [k_escapechar k_quoting getdef].
  rewrite H. cbn [negb]. destruct c; reflexivity.
Qed.

Lemma lstrip_by_length p s : (length (lstrip_by p s) <= length s)%nat.
Proof. induction s as [|c s IH]; cbn; [lia|]. destruct (p c); cbn; lia. Qed.

Theorem dialect_rows_roundtrip pv lim d dl q term rows :
  sane_dialect d dl q term -> d_doubleQuote d = true ->
  quote_crlf pv = true \/ term = [CR; LF] ->
  cells_within lim (texts rows) -> bom_safe d rows ->
  exists t, write_file pv lim (Some d) kw0 rows = Ok t
    /\ reader_rows lim (Some d) kw0 t = Ok (map (map (skip_back d dl q)) (texts rows), None).
Proof.
  intros H Hdq Hnl Hlen Hbom.
  set (f := dfmt lim d dl q term).
  assert (Hwf : wf_fmt f) by (apply sane_wf; [exact H|congruence]).
  assert (Hk := sane_kw d dl q term H). assert (Hf := sane_fmt lim d dl q term H).
  assert (Hw : exists t, write_file pv lim (Some d) kw0 rows = Ok t).
  { rewrite (write_file_spec pv lim (Some d) kw0 rows _ _ Hk Hf).
    destruct (wrows_total pv f (map (map (src_cell (dkw d term))) rows)) as [t Ht].
    - discriminate.
    - intros forced s. apply wfield_total; cbn; [discriminate|exact Hdq|rewrite Hdq; reflexivity].
    - fold f. rewrite Ht. eexists; reflexivity. }
  destruct Hw as [t Ht]. exists t; split; [exact Ht|].
  replace (map (map (skip_back d dl q)) (texts rows))
    with (mapcells (fun c => skip_back d dl q (cell_text c)) rows)
    by (unfold texts, mapcells; rewrite map_map; apply map_ext; intros r; rewrite map_map; reflexivity).
  eapply (roundtrip_gen pv lim (Some d) kw0 (dkw d term) f rows _ t Hk Hf Hwf); auto.
  - apply sane_seps, H.
  - intros row c _ _. rewrite src_cell_dq by exact Hdq.
    assert (Hc : cell_reads pv f (cell_text c) (back f (wflag pv f (cell_text c)) (cell_text c))).
    { apply cell_reads_direct; [exact Hwf| | |].
      - destruct Hnl as [Hq|Hq]; [left; exact Hq|right; exact Hq].
      - apply sane_seps, H.
      - right; right. intros e E. cbn in E. rewrite Hdq in E; discriminate. }
    unfold f in Hc at 3. rewrite (wflag_dfmt pv lim d dl q term _ H Hdq Hnl) in Hc. exact Hc.
  - intros row s Hr Hs. unfold mapcells in Hr. apply in_map_iff in Hr. destruct Hr as (r & <- & Hr).
    apply in_map_iff in Hs. destruct Hs as (c & <- & Hc).
    assert (Hcl : N.of_nat (length (cell_text c)) <= lim).
    { apply (Hlen (map cell_text r)); [apply in_map, Hr|apply in_map, Hc]. }
    unfold skip_back. destruct (_ && _); [|exact Hcl].
    assert (Hl := lstrip_by_length (N.eqb SPACE) (cell_text c)). lia.
  - intros B1 B2. assert (Hb := Hbom B1 B2). split; [|cbn; repeat split].
    + intros s r rs E. rewrite src_cell_dq by exact Hdq. eapply no_bom_src; eassumption.
    + apply (sd_bom _ _ _ _ H).
    + intros E; injection E as E. apply (sd_bom _ _ _ _ H). exact E.
    + rewrite Hdq. discriminate.
Qed.

Theorem dialect_roundtrip pv lim d dl q term rows :
  sane_dialect d dl q term -> d_doubleQuote d = true -> d_skipInitialSpace d = false ->
  quote_crlf pv = true \/ term = [CR; LF] ->
  cells_within lim (texts rows) -> bom_safe d rows ->
  exists t, write_file pv lim (Some d) kw0 rows = Ok t
    /\ (forall kept, Selected (fun lr => ~ row_is_dropped d lr) (number_rows 0 (texts rows)) kept ->
        unicode_reader lim (Some d) kw0 t = Ok (map (fun lr => presented d (snd lr)) kept, None))
    /\ (keeps_everything d -> unicode_reader lim (Some d) kw0 t = Ok (texts rows, None)).
Proof.
  intros H Hdq Hskip Hnl Hlen Hbom.
  destruct (dialect_rows_roundtrip pv lim d dl q term rows H Hdq Hnl Hlen Hbom) as (t & Ht & Hr).
  exists t; split; [exact Ht|].
  assert (E : map (map (skip_back d dl q)) (texts rows) = texts rows).
  { transitivity (map (fun r => r) (texts rows)); [|apply map_id].
    apply map_ext; intros r. transitivity (map (fun c => c) r); [|apply map_id]. apply map_ext; intros c.
    unfold skip_back; rewrite Hskip; reflexivity. }
  rewrite E in Hr. split.
  - intros kept Hk. unfold unicode_reader. rewrite Hr. cbn [bind fst snd].
    destruct (reader_dialect_iteration d (texts rows) kept _ Hk (filter_Selected (recb d) _ _ (recb_spec d))) as [H1 _].
    rewrite H1, map_map. reflexivity.
  - intros Hk. unfold unicode_reader. rewrite Hr. cbn [bind fst snd].
    rewrite reader_iter_keeps by exact Hk. reflexivity.
Qed.

(** *** quoteChar = None: whatever can be written is read back *)
Theorem dialect_noquote_roundtrip pv lim d dl term more rows t :
  d_delimiter d = [dl] -> d_quoteChar d = None -> d_lineTerminators d = term :: more ->
  standard_terminator term -> no_linebreak_char dl -> dl <> BOM -> d_skipInitialSpace d = false ->
  quote_crlf pv = true \/ term = [CR; LF] ->
  cells_within lim (texts rows) -> bom_safe d rows ->
  write_file pv lim (Some d) kw0 rows = Ok t ->
  reader_rows lim (Some d) kw0 t = Ok (texts rows, None).
Proof.
  intros Hd Hq Hlt Hstd Hdl Hdb Hskip Hnl Hlen Hbom Ht.
  set (f := {| delim := dl; quotechar := None; escapechar := None; doublequote := d_doubleQuote d;
               skipinitialspace := false; lineterm := term; quotemode := QNone; strict := true; limit := lim |}).
  assert (Hk : effective_kw (Some d) kw0 = Ok (dkw d term)).
  { unfold effective_kw, as_python_formatting_parameters. rewrite Hlt. reflexivity. }
  assert (Hf : mk_fmt lim (dkw d term) = Ok f).
  { unfold mk_fmt, dkw, escape_character. cbn [k_delimiter k_quotechar k_escapechar k_quoting k_doublequote
     k_skipinitialspace k_lineterminator k_strict getdef]. rewrite Hd, Hq, Hskip.
    destruct (d_doubleQuote d); reflexivity. }
  assert (Hwf : wf_fmt f).
  { constructor; cbn; try discriminate; try assumption. - apply nl_false, Hdl. - congruence. }
  assert (Hsrc : forall c, src_cell (dkw d term) c = cell_text c).
  { intros c. unfold src_cell, escapedoubled, doubling, dkw, escape_character; cbn [k_escapechar k_quoting getdef].
    rewrite Hq. destruct (negb (d_doubleQuote d)), c; reflexivity. }
  eapply (roundtrip_gen pv lim (Some d) kw0 (dkw d term) f rows cell_text t Hk Hf Hwf); auto.
  - intros E; discriminate E.
  - intros row c _ _. rewrite Hsrc.
    assert (Hc : cell_reads pv f (cell_text c) (back f (wflag pv f (cell_text c)) (cell_text c))).
    { apply cell_reads_direct; [exact Hwf| | |].
      - destruct Hnl as [Hx|Hx]; [left; exact Hx|right; exact Hx].
      - intros E; discriminate E.
      - left; reflexivity. }
    exact Hc.
  - intros B1 B2. assert (Hb := Hbom B1 B2). split; [|cbn; repeat split; congruence].
    intros s r rs E. rewrite Hsrc. eapply no_bom_src; eassumption.
Qed.

(** ** C03: doubleQuote = false *)
Lemma src_cell_esc d dl q term c :
  sane_dialect d dl q term -> d_doubleQuote d = false ->
  src_cell (dkw d term) c = match c with CStr s => replace1 92 [92; 92] s | CNone => [] | COther s => s end.
Proof.
  intros H Hdq. unfold src_cell, escapedoubled, doubling, dkw, escape_character; cbn [k_escapechar k_quoting getdef].
  rewrite Hdq, (sd_quote _ _ _ _ H). cbn [negb]. destruct c as [s| |s]; try reflexivity.
  cbn [cell_str app]. apply replace_one.
Qed.

Lemma replace1_hd c new s x : hd_or (replace1 c (c :: new) s) None = Some x -> hd_or s None = Some x.
Proof.
  destruct s as [|y s]; cbn; [congruence|]. destruct (N.eqb_spec y c) as [->|]; cbn; congruence.
Qed.

Lemma esc_write_total pv lim d dl q term rows :
  sane_dialect d dl q term -> d_doubleQuote d = false ->
  exists t, write_file pv lim (Some d) kw0 rows = Ok t.
Proof.
  intros H Hdq. rewrite (write_file_spec pv lim (Some d) kw0 rows _ _ (sane_kw d dl q term H) (sane_fmt lim d dl q term H)).
  destruct (wrows_total pv (dfmt lim d dl q term) (map (map (src_cell (dkw d term))) rows)) as [t Ht].
  - discriminate.
  - intros forced s. apply wfield_total_esc; cbn; [discriminate|rewrite Hdq; discriminate].
  - rewrite Ht. eexists; reflexivity.
Qed.

Lemma esc_bom d dl q term rows :
  sane_dialect d dl q term -> d_doubleQuote d = false -> bom_safe d rows ->
  reader_strips_bom (Some d) = true -> writer_adds_bom (Some d) = false ->
  forall s r rs, rows = (s :: r) :: rs -> hd_or (src_cell (dkw d term) s) None <> Some BOM.
Proof.
  intros H Hdq Hbom B1 B2 s r rs E. rewrite (src_cell_esc d dl q term s H Hdq).
  assert (Hn := no_bom_src rows s r rs (Hbom B1 B2) E).
  destruct s as [s| |s]; cbn [cell_text] in Hn; try exact Hn.
  intros Hx. apply Hn. eapply replace1_hd; exact Hx.
Qed.

(** interpreters that do not escape the escape character: the work-around works *)
Theorem escape_roundtrip_old pv lim d dl q term rows :
  esc_esc pv = false ->
  sane_dialect d dl q term -> d_doubleQuote d = false -> dl <> 92 -> q <> 92 ->
  d_skipInitialSpace d = false ->
  quote_crlf pv = true \/ term = [CR; LF] ->
  (forall row s, In row rows -> In (COther s) row -> ~ In 92 s) ->
  cells_within lim (texts rows) -> bom_safe d rows ->
  exists t, write_file pv lim (Some d) kw0 rows = Ok t
    /\ reader_rows lim (Some d) kw0 t = Ok (texts rows, None).
Proof.
  intros Hpv H Hdq Hdl Hq Hskip Hnl Hother Hlen Hbom.
  set (f := dfmt lim d dl q term).
  assert (Hwf : wf_fmt f) by (apply sane_wf; [exact H|auto]).
  destruct (esc_write_total pv lim d dl q term rows H Hdq) as [t Ht].
  exists t; split; [exact Ht|].
  eapply (roundtrip_gen pv lim (Some d) kw0 (dkw d term) f rows cell_text t
            (sane_kw d dl q term H) (sane_fmt lim d dl q term H) Hwf); auto.
  - apply sane_seps, H.
  - intros row c Hrow Hc. rewrite (src_cell_esc d dl q term c H Hdq).
    assert (Hback : forall b s, back f b s = s).
    { intros b s. unfold back; cbn [skipinitialspace f dfmt]. rewrite Hskip; reflexivity. }
    assert (Hnlq : nl_quoted pv f) by (destruct Hnl as [Hx|Hx]; [left; exact Hx|right; exact Hx]).
    assert (Hplain : forall s, ~ In 92 s -> cell_reads pv f s s).
    { intros s Hs. rewrite <- (Hback (wflag pv f s) s) at 2. apply cell_reads_direct; auto.
      - apply sane_seps, H.
      - right; right. intros e E. cbn in E. rewrite Hdq in E. injection E as <-; exact Hs. }
    destruct c as [s| |s]; cbn [cell_text].
    + rewrite <- (Hback (wflag pv f (replace1 92 [92; 92] s)) s) at 2.
      apply cell_reads_doubled; auto.
      * apply sane_seps, H.
      * discriminate.
      * cbn. rewrite Hdq; reflexivity.
    + apply Hplain. intros [].
    + apply Hplain. eapply Hother; eassumption.
  - intros B1 B2. split; [eapply esc_bom; eassumption|].
    cbn. destruct (sd_bom _ _ _ _ H) as [Hx Hy]. repeat split; [exact Hx|congruence|].
    rewrite Hdq. discriminate.
Qed.

(** interpreters that do escape it: every backslash comes back doubled *)
Theorem escape_roundtrip_new pv lim d dl q term rows :
  esc_esc pv = true ->
  sane_dialect d dl q term -> d_doubleQuote d = false -> dl <> 92 -> q <> 92 ->
  d_skipInitialSpace d = false ->
  quote_crlf pv = true \/ term = [CR; LF] ->
  cells_within lim (map (map esc_text) rows) -> bom_safe d rows ->
  exists t, write_file pv lim (Some d) kw0 rows = Ok t
    /\ reader_rows lim (Some d) kw0 t = Ok (map (map esc_text) rows, None).
Proof.
  intros Hpv H Hdq Hdl Hq Hskip Hnl Hlen Hbom.
  set (f := dfmt lim d dl q term).
  assert (Hwf : wf_fmt f) by (apply sane_wf; [exact H|auto]).
  destruct (esc_write_total pv lim d dl q term rows H Hdq) as [t Ht].
  exists t; split; [exact Ht|].
  eapply (roundtrip_gen pv lim (Some d) kw0 (dkw d term) f rows esc_text t
            (sane_kw d dl q term H) (sane_fmt lim d dl q term H) Hwf); auto.
  - apply sane_seps, H.
  - intros row c Hrow Hc. rewrite (src_cell_esc d dl q term c H Hdq).
    assert (Hback : forall b s, back f b s = s).
    { intros b s. unfold back; cbn [skipinitialspace f dfmt]. rewrite Hskip; reflexivity. }
    assert (Hnlq : nl_quoted pv f) by (destruct Hnl as [Hx|Hx]; [left; exact Hx|right; exact Hx]).
    assert (Hany : forall s, cell_reads pv f s s).
    { intros s. rewrite <- (Hback (wflag pv f s) s) at 2. apply cell_reads_direct; auto.
      apply sane_seps, H. }
    destruct c as [s| |s]; cbn [esc_text]; apply Hany.
  - intros B1 B2. split; [eapply esc_bom; eassumption|].
    cbn. destruct (sd_bom _ _ _ _ H) as [Hx Hy]. repeat split; [exact Hx|congruence|].
    rewrite Hdq. discriminate.
Qed.
