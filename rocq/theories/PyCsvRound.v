(** csv.reader applied to the output of csv.writer. *)
From Verif Require Import PyStr PyCsv PyCsvProofs.

(** CR and LF are always quoted by the writer *)
Definition nl_quoted (pv : pyver) (f : fmt) : Prop :=
  quote_crlf pv = true \/ lineterm f = [CR; LF].

Definition seps_not_space (f : fmt) : Prop :=
  skipinitialspace f = true -> no_esc_space f /\ no_quote_space f.

Lemma special_false pv f c : special pv f c = false ->
  nl_quoted pv f ->
  c <> delim f /\ is_oc (escapechar f) c = false /\ is_oc (quotechar f) c = false /\ is_nl c = false.
Proof.
  unfold special; intros H Hnl.
  repeat (apply orb_false_iff in H; destruct H as [H ?]).
  apply N.eqb_neq in H. repeat split; try assumption.
  unfold is_nl. destruct Hnl as [Hq|Hl].
  - rewrite Hq in *; cbn [andb] in *. rewrite orb_comm; assumption.
  - rewrite Hl in *. unfold char_mem in *; cbn [existsb] in *.
    rewrite orb_false_r in *. rewrite orb_comm. assumption.
Qed.

Lemma special_q pv f q : quotechar f = Some q -> special pv f q = true.
Proof.
  intros H; unfold special. assert (E : is_oc (quotechar f) q = true) by (apply is_oc_true; exact H).
  rewrite E, !orb_true_r; reflexivity.
Qed.
Lemma special_e pv f e : escapechar f = Some e -> special pv f e = true.
Proof.
  intros H; unfold special. assert (E : is_oc (escapechar f) e = true) by (apply is_oc_true; exact H).
  rewrite E, !orb_true_r; reflexivity.
Qed.

Record item_for (pv : pyver) (f : fmt) (c : N) (t : pystr) (b : bool) (i : item) : Prop := {
  if_char : ichar i = c;
  if_text : itext f i = t;
  if_q : quotes_on f = true -> ok_q f i;
  if_u : b = false -> ok_u f i;
  if_plain : special pv f c = false -> i = IPlain c;
}.

Lemma wchar_item pv f c t b :
  wf_fmt f -> nl_quoted pv f ->
  (quotemode f = QNone \/ esc_esc pv = true \/ escapechar f <> Some c) ->
  wchar pv f c = Ok (t, b) -> exists i, item_for pv f c t b i.
Proof.
  intros Hwf Hnl He H. unfold wchar in H.
  destruct (special pv f c) eqn:Hs.
  2:{ injection H as <- <-. destruct (special_false pv f c Hs Hnl) as (H1 & H2 & H3 & H4).
      exists (IPlain c); constructor; try reflexivity.
      - intros _; split; assumption.
      - intros _; repeat split; try assumption. rewrite H3; reflexivity. }
  assert (Hesc : match escapechar f with Some e => Ok ([e; c], false) | None => Err CsvError end = Ok (t, b) ->
                 exists i, item_for pv f c t b i).
  { intros E. destruct (escapechar f) as [e|] eqn:Ee; [|discriminate]. injection E as <- <-.
    exists (IEsc c); constructor; cbn; try rewrite Ee; try congruence. }
  assert (Hmid : (if is_oc (quotechar f) c
           then if doublequote f then Ok ([c; c], true)
                else match escapechar f with Some e => Ok ([e; c], false) | None => Err CsvError end
           else if is_oc (escapechar f) c && esc_esc pv
                then match escapechar f with Some e => Ok ([e; c], false) | None => Err CsvError end
           else Ok ([c], true)) = Ok (t, b) -> quotemode f <> QNone -> exists i, item_for pv f c t b i).
  { intros E Hqm. destruct (is_oc (quotechar f) c) eqn:Eq.
    - destruct (doublequote f) eqn:Edq; [|apply Hesc, E].
      injection E as <- <-. exists (IDbl c); constructor; cbn; try congruence; try reflexivity.
      intros _; split; [apply is_oc_true, Eq|assumption].
    - destruct (is_oc (escapechar f) c && esc_esc pv) eqn:Ee; [apply Hesc, E|].
      injection E as <- <-. exists (IPlain c); constructor; cbn; try congruence; try reflexivity.
      intros _; split; [exact Eq|].
      destruct (is_oc (escapechar f) c) eqn:Eo; [|reflexivity].
      apply is_oc_true in Eo. destruct He as [He|[He|He]]; try congruence.
      rewrite He in Ee; discriminate. }
  destruct (quotemode f) eqn:Eqm; [apply Hmid; [exact H|congruence] .. | apply Hesc, H].
Qed.

(** a cell as a list of source characters, each encoded by [enc] *)
Fixpoint wbodyG (enc : N -> res (pystr * bool)) (s : pystr) : res (pystr * bool) :=
  match s with
  | [] => Ok ([], false)
  | c :: s' => a <- enc c ;; b <- wbodyG enc s' ;; Ok (fst a ++ fst b, snd a || snd b)
  end.
Lemma wbody_G pv f s : wbody pv f s = wbodyG (wchar pv f) s.
Proof. induction s as [|c s IH]; [reflexivity|]. cbn [wbody wbodyG]. rewrite IH; reflexivity. Qed.

Lemma wbody_app pv f a b :
  wbody pv f (a ++ b) =
  (x <- wbody pv f a ;; y <- wbody pv f b ;; Ok (fst x ++ fst y, snd x || snd y)).
Proof.
  induction a as [|c a IH]; cbn [app wbody].
  - destruct (wbody pv f b) as [[t q]|e]; reflexivity.
  - rewrite IH. destruct (wchar pv f c) as [[t1 q1]|e]; cbn [bind]; [|reflexivity].
    destruct (wbody pv f a) as [[t2 q2]|e]; cbn [bind]; [|reflexivity].
    destruct (wbody pv f b) as [[t3 q3]|e]; cbn [bind fst snd]; [|reflexivity].
    rewrite app_assoc, orb_assoc; reflexivity.
Qed.

Lemma wbody_replace pv f e s :
  wbody pv f (replace1 e [e; e] s) =
  wbodyG (fun c => wbody pv f (if c =? e then [e; e] else [c])) s.
Proof.
  unfold replace1. induction s as [|c s IH]; [reflexivity|].
  cbn [flat_map wbodyG]. rewrite wbody_app, IH. reflexivity.
Qed.

Lemma wbodyG_items pv f enc s t b :
  (forall c t b, In c s -> enc c = Ok (t, b) -> exists i, item_for pv f c t b i) ->
  wbodyG enc s = Ok (t, b) ->
  exists its, map ichar its = s /\ flat_map (itext f) its = t
    /\ (quotes_on f = true -> Forall (ok_q f) its) /\ (b = false -> Forall (ok_u f) its)
    /\ Forall (fun i => special pv f (ichar i) = false -> i = IPlain (ichar i)) its.
Proof.
  intros Henc. revert t b; induction s as [|c s IH]; intros t b H; cbn [wbodyG] in H.
  - injection H as <- <-. exists []; repeat split; constructor.
  - destruct (enc c) as [[t1 b1]|e] eqn:E1; cbn [bind] in H; [|discriminate].
    destruct (wbodyG enc s) as [[t2 b2]|e] eqn:E2; cbn [bind fst snd] in H; [|discriminate].
    injection H as <- <-.
    destruct (Henc c t1 b1 (or_introl eq_refl) E1) as (i & [H1 H2 H3 H4 H5]).
    assert (Henc' : forall c t b, In c s -> enc c = Ok (t, b) -> exists i, item_for pv f c t b i).
    { intros c' t' b' Hin. apply Henc. right; exact Hin. }
    destruct (IH Henc' t2 b2 eq_refl) as (its & K1 & K2 & K3 & K4 & K5).
    exists (i :: its). cbn [map flat_map]. rewrite H1, H2, K1, K2.
    repeat split.
    + intros Hq; constructor; auto.
    + intros Hb; apply orb_false_iff in Hb; destruct Hb; constructor; auto.
    + constructor; [rewrite H1; exact H5|exact K5].
Qed.

Definition lstrip_sp (s : pystr) : pystr := lstrip_by (N.eqb SPACE) s.

Lemma split_leading f its :
  Forall (fun i => ichar i = SPACE -> i = IPlain SPACE) its ->
  exists sp its', flat_map (itext f) its = sp ++ flat_map (itext f) its'
    /\ forallb (N.eqb SPACE) sp = true
    /\ map ichar its' = lstrip_sp (map ichar its)
    /\ (match its' with IPlain c :: _ => c <> SPACE | _ => True end)
    /\ (Forall (ok_u f) its -> Forall (ok_u f) its').
Proof.
  intros H; induction H as [|i its Hi Hits (sp & its' & H1 & H2 & H3 & H4 & H5)].
  - exists [], []; repeat split. intros; assumption.
  - destruct (N.eqb_spec SPACE (ichar i)) as [E|E].
    + assert (Hi' := Hi (eq_sym E)). subst i. exists (SPACE :: sp), its'.
      cbn [flat_map itext app map ichar]. rewrite H1. repeat split.
      * cbn [forallb]. rewrite H2; reflexivity.
      * unfold lstrip_sp; cbn [lstrip_by]. change (SPACE =? SPACE) with true. exact H3.
      * exact H4.
      * intros Hf; inversion Hf; auto.
    + exists [], (i :: its). cbn [app]. repeat split.
      * unfold lstrip_sp. cbn [map lstrip_by]. apply N.eqb_neq in E; rewrite E. reflexivity.
      * destruct i; cbn in E; congruence || exact I.
      * intros; assumption.
Qed.

(** does the writer put quotes around this cell text, given wbody's verdict *)
Definition plain_mode (f : fmt) (b : bool) : bool :=
  match quotemode f with QNone => true | QAll => false | QMinimal => negb b end.
(** how a cell comes back *)
Definition back (f : fmt) (b : bool) (s : pystr) : pystr :=
  if skipinitialspace f && plain_mode f b then lstrip_sp s else s.

Lemma special_space pv f : wf_fmt f -> seps_not_space f -> skipinitialspace f = true ->
  special pv f SPACE = false.
Proof.
  intros Hwf Hs Hk. destruct (Hs Hk) as [He Hq]. unfold special.
  assert (E0 : SPACE =? delim f = false)
    by (apply N.eqb_neq; intros E; apply (wf_ds f Hwf Hk); congruence).
  assert (E1 : is_oc (quotechar f) SPACE = false)
    by (apply is_oc_false; intros E; apply (Hq _ E); reflexivity).
  assert (E2 : is_oc (escapechar f) SPACE = false)
    by (apply is_oc_false; intros E; apply (He _ E); reflexivity).
  rewrite E0, E1, E2. destruct (wf_lt f Hwf) as [H|[H|H]]; rewrite H; cbn; apply andb_false_r.
Qed.

Lemma field_of_items pv f (forced : bool) src s b t its :
  wf_fmt f -> seps_not_space f ->
  (forced = true -> src = []) ->
  wbody pv f src = Ok (flat_map (itext f) its, b) ->
  map ichar its = s ->
  (quotes_on f = true -> Forall (ok_q f) its) -> (plain_mode f b = true -> Forall (ok_u f) its) ->
  Forall (fun i => special pv f (ichar i) = false -> i = IPlain (ichar i)) its ->
  (src = [] -> s = []) ->
  wfield pv f forced src = Ok t -> field_reads f t (back f b s).
Proof.
  intros Hwf Hsep Hforced Hb Hs Hq Hu Hp Hsrc Ht.
  assert (Hquoted : quotes_on f = true -> field_reads f (wrap_quotes f (flat_map (itext f) its)) s).
  { intros Hqo. unfold wrap_quotes. destruct (quotechar f) as [q|] eqn:Eq.
    - rewrite <- Hs. apply fr_quoted; auto.
    - exfalso. apply (wf_quote f Hwf); [|exact Eq]. unfold quotes_on in Hqo; destruct (quotemode f); congruence. }
  assert (Hplain : plain_mode f b = true -> field_reads f (flat_map (itext f) its) (back f b s)).
  { intros Hpm. unfold back. rewrite Hpm, andb_true_r.
    destruct (skipinitialspace f) eqn:Hk.
    - assert (Hsp := special_space pv f Hwf Hsep Hk).
      destruct (split_leading f its) as (sp & its' & H1 & H2 & H3 & H4 & H5).
      { eapply Forall_impl; [|exact Hp]. intros i Hi E. cbn beta in Hi. rewrite E in Hi. apply Hi, Hsp. }
      rewrite H1, <- Hs, <- H3. apply fr_plain; auto.
    - rewrite <- Hs. apply (fr_plain f [] its); auto; intros; congruence. }
  assert (Hempty : src = [] -> back f b s = s).
  { intros E. rewrite (Hsrc E). unfold back. destruct (_ && _); reflexivity. }
  unfold wfield in Ht. rewrite Hb in Ht. cbn [bind fst snd] in Ht.
  destruct (quotemode f) eqn:Eqm.
  - assert (Hqo : quotes_on f = true) by (unfold quotes_on; rewrite Eqm; reflexivity).
    destruct b.
    { rewrite orb_true_r in Ht. injection Ht as <-.
      replace (back f true s) with s; [apply Hquoted, Hqo|].
      unfold back, plain_mode; rewrite Eqm, andb_false_r; reflexivity. }
    rewrite orb_false_r in Ht.
    destruct src as [|c0 src0].
    + rewrite (Hempty eq_refl). destruct (forced || _); injection Ht as <-; [apply Hquoted, Hqo|].
      rewrite <- (Hempty eq_refl). apply Hplain. unfold plain_mode; rewrite Eqm; reflexivity.
    + rewrite andb_false_r, orb_false_r in Ht. destruct forced; [discriminate (Hforced eq_refl)|].
      injection Ht as <-. apply Hplain. unfold plain_mode; rewrite Eqm; reflexivity.
  - injection Ht as <-. assert (Hqo : quotes_on f = true) by (unfold quotes_on; rewrite Eqm; reflexivity).
    replace (back f b s) with s; [apply Hquoted, Hqo|].
    unfold back, plain_mode; rewrite Eqm, andb_false_r; reflexivity.
  - destruct (_ && _) in Ht; [discriminate|]. injection Ht as <-. apply Hplain.
    unfold plain_mode; rewrite Eqm; reflexivity.
Qed.

(** [cell_reads pv f src s]: whatever field text the writer produces for [src]
    is read as [s]. *)
Definition cell_reads (pv : pyver) (f : fmt) (src s : pystr) : Prop :=
  forall forced t, (forced = true -> src = []) ->
    wfield pv f forced src = Ok t -> field_reads f t s.

Definition wflag (pv : pyver) (f : fmt) (src : pystr) : bool :=
  match wbody pv f src with Ok (_, b) => b | Err _ => true end.

(** strings written as they are *)
Lemma cell_reads_direct pv f s :
  wf_fmt f -> nl_quoted pv f -> seps_not_space f ->
  (quotemode f = QNone \/ esc_esc pv = true \/ forall e, escapechar f = Some e -> ~ In e s) ->
  cell_reads pv f s (back f (wflag pv f s) s).
Proof.
  intros Hwf Hnl Hsep He forced t Hf Ht.
  destruct (wbody pv f s) as [[bt b]|e] eqn:Eb.
  2:{ unfold wfield in Ht; rewrite Eb in Ht; discriminate. }
  rewrite wbody_G in Eb.
  destruct (wbodyG_items pv f (wchar pv f) s bt b) as (its & K1 & K2 & K3 & K4 & K5).
  { intros c t' b' Hin Hc. apply wchar_item; auto.
    destruct He as [He|[He|He]]; auto. right; right. intros E. apply (He _ E Hin). }
  { exact Eb. }
  unfold wflag. rewrite wbody_G, Eb.
  apply (field_of_items pv f forced s s b t its); auto.
  - rewrite wbody_G, K2; exact Eb.
  - unfold plain_mode. intros Hm; destruct (quotemode f) eqn:Eqm; [|discriminate|].
    + apply K4; destruct b; [discriminate|reflexivity].
    + apply K4. destruct b; [|reflexivity].
      (* QNone never sets the quoted flag *)
      exfalso. clear -Eb Eqm. revert bt Eb. induction s as [|c s IH]; intros bt Eb; [discriminate|].
      cbn [wbodyG] in Eb. destruct (wchar pv f c) as [[t1 b1]|] eqn:Ec; cbn [bind] in Eb; [|discriminate].
      destruct (wbodyG (wchar pv f) s) as [[t2 b2]|]; cbn [bind fst snd] in Eb; [|discriminate].
      assert (b1 = false).
      { unfold wchar in Ec; rewrite Eqm in Ec. destruct (special pv f c); [|congruence].
        destruct (escapechar f); congruence. }
      subst b1. cbn [orb] in Eb. destruct b2; [|discriminate]. eapply IH; reflexivity.
Qed.

(** strings whose escape characters were doubled beforehand, written by a
    csv.writer that does not escape the escape character *)
Lemma cell_reads_doubled pv f e s :
  wf_fmt f -> nl_quoted pv f -> seps_not_space f ->
  quotemode f <> QNone -> esc_esc pv = false -> escapechar f = Some e ->
  cell_reads pv f (replace1 e [e; e] s) (back f (wflag pv f (replace1 e [e; e] s)) s).
Proof.
  intros Hwf Hnl Hsep Hqm Hpv He forced t Hf Ht.
  assert (Hch : forall c t b, (wbody pv f (if c =? e then [e; e] else [c])) = Ok (t, b) ->
                 exists i, item_for pv f c t b i).
  { intros c t' b' H. destruct (N.eqb_spec c e) as [->|Hne].
    - assert (Ec : wchar pv f e = Ok ([e], true)).
      { unfold wchar. rewrite (special_e pv f e He).
        assert (Eq : is_oc (quotechar f) e = false).
        { apply is_oc_false; intros E. eapply (wf_qe f Hwf); eauto. }
        rewrite Eq, Hpv, andb_false_r. destruct (quotemode f); congruence. }
      cbn [wbody] in H. rewrite Ec in H. cbn in H. injection H as <- <-.
      exists (IEsc e); constructor; cbn; try rewrite He; try congruence.
      intros E. rewrite (special_e pv f e He) in E; discriminate.
    - cbn [wbody] in H. destruct (wchar pv f c) as [[t1 b1]|] eqn:Ec; cbn in H; [|discriminate].
      rewrite app_nil_r, orb_false_r in H. injection H as <- <-.
      apply wchar_item; auto. right; right. congruence. }
  destruct (wbody pv f (replace1 e [e; e] s)) as [[bt b]|x] eqn:Eb.
  2:{ unfold wfield in Ht; rewrite Eb in Ht; discriminate. }
  assert (Eb' := Eb). rewrite wbody_replace in Eb'.
  destruct (wbodyG_items pv f _ s bt b (fun c t b _ => Hch c t b) Eb') as (its & K1 & K2 & K3 & K4 & K5).
  unfold wflag. rewrite Eb.
  apply (field_of_items pv f forced (replace1 e [e; e] s) s b t its); auto.
  - rewrite K2; exact Eb.
  - unfold plain_mode. intros Hm; destruct (quotemode f) eqn:Eqm; [|discriminate|congruence].
    apply K4; destruct b; [discriminate|reflexivity].
  - unfold replace1. destruct s as [|c s]; [reflexivity|]. cbn [flat_map].
    destruct (c =? e); discriminate.
Qed.

(** ** Rows *)
Lemma wrow_reads pv f row ss t :
  wf_fmt f ->
  Forall2 (cell_reads pv f) row ss ->
  wrow pv f row = Ok t ->
  exists text, t = text ++ lineterm f /\ row_reads f text ss.
Proof.
  intros Hwf Hr Ht. unfold wrow in Ht.
  destruct (mapM (wfield pv f false) row) as [parts|e] eqn:Em; cbn [bind] in Ht; [|discriminate].
  assert (Hparts : Forall2 (field_reads f) parts ss).
  { apply mapM_Ok_inv in Em. clear Ht. revert ss Hr. induction Em as [|c p row parts Hc _ IH]; intros ss Hr.
    - inversion Hr; constructor.
    - inversion Hr as [|c' s row' ss' Hcs Hrs]; subst. constructor; [|apply IH, Hrs].
      eapply Hcs; [|exact Hc]. discriminate. }
  destruct row as [|c row].
  { injection Em as <-. inversion Hr; subst. cbn in Ht. injection Ht as <-.
    exists []; split; [reflexivity|constructor]. }
  destruct (wjoin (delim f) parts) as [|w ws] eqn:Ew.
  - (* single empty field *)
    assert (Hone : parts = [[]]).
    { destruct parts as [|p [|p2 ps]].
      - exfalso. inversion Hparts; subst. inversion Hr.
      - cbn in Ew; subst; reflexivity.
      - exfalso. change (p ++ delim f :: wjoin (delim f) (p2 :: ps) = []) in Ew. destruct p; discriminate. }
    subst parts. inversion Hparts as [|p s ps ss' Hps Hnil]; subst. inversion Hnil; subst.
    inversion Hr as [|c' s' row' ss' Hcs Hrs]; subst. inversion Hrs; subst.
    (* the source field is empty too *)
    cbn [mapM] in Em. destruct (wfield pv f false c) as [p|] eqn:Ec; cbn in Em; [|discriminate].
    injection Em as ->.
    assert (Hc : c = []).
    { unfold wfield in Ec. destruct c as [|c0 c]; [reflexivity|exfalso].
      destruct (wbody pv f (c0 :: c)) as [[bt b]|] eqn:Eb; cbn [bind fst snd] in Ec; [|discriminate].
      assert (Hbt : bt <> []).
      { cbn [wbody] in Eb. destruct (wchar pv f c0) as [[t1 b1]|] eqn:E1; cbn in Eb; [|discriminate].
        destruct (wbody pv f c) as [[t2 b2]|]; cbn in Eb; [|discriminate]. injection Eb as <- <-.
        assert (t1 <> []).
        { unfold wchar in E1. destruct (special pv f c0).
          - destruct (quotemode f), (is_oc (quotechar f) c0), (doublequote f), (escapechar f);
              repeat (destruct (_ && _) in E1); congruence.
          - congruence. }
        destruct t1; [congruence|discriminate]. }
      destruct (quotemode f).
      - destruct (_ || _) in Ec; injection Ec as E; [|congruence].
        unfold wrap_quotes in E. destruct (quotechar f); congruence.
      - injection Ec as E. unfold wrap_quotes in E. destruct (quotechar f); congruence.
      - destruct (_ && _) in Ec; [discriminate|]. injection Ec as E; congruence. }
    subst c.
    assert (Hq : exists t0, quotemode f <> QNone /\ wfield pv f true [] = Ok t0 /\ t = t0 ++ lineterm f).
    { destruct (quotemode f) eqn:Eqm; [| |discriminate].
      - destruct (wfield pv f true []) as [t0|]; cbn in Ht; [|discriminate]. injection Ht as <-.
        exists t0; repeat split; congruence.
      - destruct (wfield pv f true []) as [t0|]; cbn in Ht; [|discriminate]. injection Ht as <-.
        exists t0; repeat split; congruence. }
    destruct Hq as (t0 & Hqm & Ht0 & ->). exists t0; split; [reflexivity|].
    assert (Hfr := Hcs true t0 (fun _ => eq_refl) Ht0).
    assert (Hne : t0 <> []).
    { assert (Hqc := wf_quote f Hwf Hqm). unfold wfield in Ht0; cbn [wbody bind fst snd] in Ht0.
      destruct (quotemode f) eqn:Eqm; [| |congruence]; cbn [orb] in Ht0; injection Ht0 as <-;
        unfold wrap_quotes; destruct (quotechar f); congruence || discriminate. }
    change t0 with (wjoin (delim f) [t0]) at 1.
    apply rr_cons; [constructor; [exact Hfr|constructor]|exact Hne].
  - injection Ht as <-. exists (wjoin (delim f) parts). rewrite Ew. split; [reflexivity|].
    rewrite <- Ew. apply rr_cons; [exact Hparts|rewrite Ew; discriminate].
Qed.

(** The main result: reading back what was written. [srcs] are the strings
    handed to csv.writer, [rows] what they are read as. *)
Theorem wrows_read pv f srcs rows t :
  wf_fmt f -> seps_not_space f ->
  Forall2 (Forall2 (cell_reads pv f)) srcs rows ->
  Forall (Forall (fun s => N.of_nat (length s) <= limit f)) rows ->
  wrows pv f srcs = Ok t ->
  csv_read f t = (rows, None).
Proof.
  intros Hwf Hsep Hr Hl Ht.
  assert (H : exists texts, t = rows_text f texts /\ Forall2 (row_reads f) texts rows).
  { clear Hl. revert t Ht. induction Hr as [|src row srcs rows Hrow Hr IH]; intros t Ht; cbn [wrows] in Ht.
    - injection Ht as <-. exists []; split; [reflexivity|constructor].
    - destruct (wrow pv f src) as [a|] eqn:Ea; cbn [bind] in Ht; [|discriminate].
      destruct (wrows pv f srcs) as [b|] eqn:Eb; cbn [bind] in Ht; [|discriminate].
      injection Ht as <-.
      destruct (wrow_reads pv f src row a Hwf Hrow Ea) as (text & -> & Hrr).
      destruct (IH b eq_refl) as (texts & -> & Hrrs).
      exists (text :: texts); split; [cbn [rows_text]; rewrite <- app_assoc; reflexivity|constructor; assumption]. }
  destruct H as (texts & -> & Hrr). apply rows_run; assumption.
Qed.

(** ** When writing succeeds *)
Lemma wfield_total pv f forced s :
  quotemode f <> QNone -> doublequote f = true -> escapechar f = None ->
  exists t, wfield pv f forced s = Ok t.
Proof.
  intros Hqm Hdq He.
  assert (Hb : exists x, wbody pv f s = Ok x).
  { induction s as [|c s [x IH]]; [eexists; reflexivity|].
    cbn [wbody]. rewrite IH.
    assert (Hc : exists y, wchar pv f c = Ok y).
    { unfold wchar. rewrite Hdq, He. cbn [is_oc andb].
      destruct (special pv f c); [|eexists; reflexivity].
      destruct (quotemode f); [| |congruence]; destruct (is_oc (quotechar f) c); eexists; reflexivity. }
    destruct Hc as [y ->]. eexists; reflexivity. }
  destruct Hb as [x Hx]. unfold wfield; rewrite Hx; cbn [bind].
  destruct (quotemode f); [eexists; reflexivity..|congruence].
Qed.

Lemma wfield_total_esc pv f forced s :
  quotemode f <> QNone -> escapechar f <> None ->
  exists t, wfield pv f forced s = Ok t.
Proof.
  intros Hqm He.
  assert (Hb : exists x, wbody pv f s = Ok x).
  { induction s as [|c s [x IH]]; [eexists; reflexivity|].
    cbn [wbody]. rewrite IH.
    assert (Hc : exists y, wchar pv f c = Ok y).
    { unfold wchar. destruct (escapechar f); [|congruence].
      destruct (special pv f c); [|eexists; reflexivity].
      destruct (quotemode f); [| |congruence]; destruct (is_oc (quotechar f) c), (doublequote f);
      try destruct (_ && _); eexists; reflexivity. }
    destruct Hc as [y ->]. eexists; reflexivity. }
  destruct Hb as [x Hx]. unfold wfield; rewrite Hx; cbn [bind].
  destruct (quotemode f); [eexists; reflexivity..|congruence].
Qed.

Lemma wrows_total pv f rows :
  quotemode f <> QNone -> (forall forced s, exists t, wfield pv f forced s = Ok t) ->
  exists t, wrows pv f rows = Ok t.
Proof.
  intros Hqm Hf. induction rows as [|r rows [b IH]]; [eexists; reflexivity|].
  cbn [wrows]. rewrite IH.
  assert (Hr : exists a, wrow pv f r = Ok a).
  { unfold wrow.
    assert (Hm : exists parts, mapM (wfield pv f false) r = Ok parts).
    { clear -Hf. induction r as [|c r [ps IH]]; [eexists; reflexivity|]. cbn [mapM].
      destruct (Hf false c) as [t ->]. rewrite IH. eexists; reflexivity. }
    destruct Hm as [parts ->]. cbn [bind].
    destruct r as [|c r]; [eexists; reflexivity|].
    destruct (wjoin (delim f) parts); [|eexists; reflexivity].
    destruct (Hf true []) as [t0 E]. rewrite E. cbn [bind].
    destruct (quotemode f); [eexists; reflexivity..|congruence]. }
  destruct Hr as [a ->]. eexists; reflexivity.
Qed.
