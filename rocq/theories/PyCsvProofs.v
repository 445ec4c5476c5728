(** Proofs about PyCsv: what the csv reader makes of the csv writer's output. *)
From Verif Require Import PyStr PyCsv.

(** ** The reader as a function of a token stream *)
Definition eol_after (c : N) (nxt : option N) : bool :=
  (c =? LF)
  || ((c =? CR) && negb (match nxt with Some x => x =? LF | None => false end))
  || match nxt with None => true | Some _ => false end.

Fixpoint toks_ctx (s : pystr) (nxt : option N) : list tok :=
  match s with
  | [] => []
  | c :: s' =>
      TC c :: (if eol_after c (match s' with [] => nxt | x :: _ => Some x end)
               then EOL :: toks_ctx s' nxt else toks_ctx s' nxt)
  end.
Definition toks t := toks_ctx t None.

Definition hd_or (b : pystr) (n : option N) : option N :=
  match b with [] => n | x :: _ => Some x end.

Lemma toks_ctx_app a b n :
  toks_ctx (a ++ b) n = toks_ctx a (hd_or b n) ++ toks_ctx b n.
Proof.
  induction a as [|c a IH]; [reflexivity|].
  cbn [app toks_ctx]. rewrite IH.
  destruct a as [|d a]; cbn [app hd_or].
  - destruct b as [|x b]; cbn [hd_or app toks_ctx]; destruct (eol_after _ _); reflexivity.
  - destruct (eol_after _ _); reflexivity.
Qed.

Lemma toks_ctx_nonl a x :
  forallb (fun c => negb (is_nl c)) a = true -> toks_ctx a (Some x) = map TC a.
Proof.
  induction a as [|c a IH]; cbn [forallb]; intros H; [reflexivity|].
  apply andb_true_iff in H; destruct H as [Hc Ha].
  cbn [toks_ctx map]; rewrite (IH Ha).
  unfold is_nl in Hc. unfold eol_after.
  destruct (c =? LF) eqn:E1; [discriminate|]. destruct (c =? CR) eqn:E2; [discriminate|].
  destruct a; reflexivity.
Qed.

Fixpoint read_toks (f : fmt) (p : pst) (ts : list tok) : stream (list pystr) :=
  match ts with
  | [] =>
      if negb (match field p with [] => true | _ => false end)
         || match rst p with IN_QUOTED_FIELD => true | _ => false end
      then if strict f then ([], Some CsvError)
           else ([fields p ++ [field p]], None)
      else ([], None)
  | t :: ts' =>
      match step f p t with
      | Err e => ([], Some e)
      | Ok p' =>
          match t, rst p' with
          | EOL, START_RECORD => let r := read_toks f p0 ts' in (fields p' :: fst r, snd r)
          | _, _ => read_toks f p' ts'
          end
      end
  end.

Lemma read_toks_line f p l rest :
  read_toks f p (map TC l ++ EOL :: rest) =
  match steps f p (map TC l ++ [EOL]) with
  | Err e => ([], Some e)
  | Ok p' =>
      match rst p' with
      | START_RECORD => let r := read_toks f p0 rest in (fields p' :: fst r, snd r)
      | _ => read_toks f p' rest
      end
  end.
Proof.
  revert p; induction l as [|c l IH]; intros p.
  - cbn [map app read_toks steps]. destruct (step f p EOL) as [p'|e]; cbn [bind]; [|reflexivity].
    destruct (rst p'); reflexivity.
  - cbn [map app read_toks steps]. destruct (step f p (TC c)) as [p'|e]; cbn [bind]; [|reflexivity].
    apply IH.
Qed.

Definition line_toks (ls : list pystr) : list tok :=
  flat_map (fun l => map TC l ++ [EOL]) ls.

Lemma read_lines_toks f p ls : read_lines f p ls = read_toks f p (line_toks ls).
Proof.
  revert p; induction ls as [|l ls IH]; intros p; [reflexivity|].
  change (line_toks (l :: ls)) with ((map TC l ++ [EOL]) ++ line_toks ls).
  rewrite <- app_assoc; cbn [app]. rewrite read_toks_line.
  cbn [read_lines].
  destruct (steps f p (map TC l ++ [EOL])) as [p'|e]; [|reflexivity].
  destruct (rst p'); rewrite IH; reflexivity.
Qed.

Lemma nonl_app a b : forallb (fun c => negb (is_nl c)) (a ++ b) =
  forallb (fun c => negb (is_nl c)) a && forallb (fun c => negb (is_nl c)) b.
Proof. apply forallb_app. Qed.

Lemma toks_snoc_end cur c : forallb (fun c => negb (is_nl c)) cur = true ->
  toks (cur ++ [c]) = map TC (cur ++ [c]) ++ [EOL].
Proof.
  intros H. unfold toks. rewrite toks_ctx_app; cbn [hd_or].
  rewrite (toks_ctx_nonl cur c H). cbn [toks_ctx].
  assert (E : eol_after c None = true) by (unfold eol_after; rewrite orb_true_r; reflexivity).
  rewrite E, map_app, <- app_assoc; reflexivity.
Qed.

Lemma lines_aux_toks n t cur :
  (length t <= n)%nat ->
  forallb (fun c => negb (is_nl c)) cur = true ->
  line_toks (lines_aux cur t) = toks (cur ++ t).
Proof.
  revert t cur; induction n as [|n IH]; intros t cur Hn Hcur.
  - destruct t; [|cbn in Hn; lia]. cbn [lines_aux].
    rewrite app_nil_r. destruct cur as [|x cur] using rev_ind; [reflexivity|]. clear IHcur.
    rewrite nonl_app in Hcur; apply andb_true_iff in Hcur; destruct Hcur as [Hc _].
    rewrite (toks_snoc_end _ _ Hc).
    destruct (cur ++ [x]) eqn:E; [destruct cur; discriminate|].
    cbn [line_toks flat_map]. rewrite app_nil_r. reflexivity.
  - destruct t as [|c t'].
    { apply (IH [] cur); [cbn; lia|exact Hcur]. }
    cbn [lines_aux].
    assert (Hsplit : toks (cur ++ c :: t') =
              map TC cur ++ TC c :: (if eol_after c (hd_or t' None) then EOL :: toks t' else toks t')).
    { unfold toks. rewrite toks_ctx_app. cbn [hd_or]. rewrite (toks_ctx_nonl _ _ Hcur).
      cbn [toks_ctx]. destruct t'; reflexivity. }
    cbn [length] in Hn.
    destruct (c =? LF) eqn:E1.
    + rewrite Hsplit. unfold eol_after; rewrite E1; cbn [orb].
      cbn [line_toks flat_map]. fold (line_toks (lines_aux [] t')).
      rewrite IH by (try reflexivity; lia). cbn [app].
      rewrite map_app, <- !app_assoc; reflexivity.
    + destruct (c =? CR) eqn:E2.
      * destruct t' as [|c2 t''].
        { rewrite (toks_snoc_end cur c Hcur). cbn [line_toks flat_map].
          rewrite app_nil_r; reflexivity. }
        destruct (c2 =? LF) eqn:E3.
        -- rewrite Hsplit. unfold eol_after; rewrite E1, E2; cbn [hd_or orb andb]. rewrite E3; cbn [negb orb].
           unfold toks at 1; cbn [toks_ctx].
           assert (E : eol_after c2 (hd_or t'' None) = true) by (unfold eol_after; rewrite E3; reflexivity).
           unfold hd_or in E; rewrite E.
           cbn [line_toks flat_map]. fold (line_toks (lines_aux [] t'')).
           rewrite IH by (try reflexivity; cbn [length] in Hn; lia).
           rewrite map_app, <- !app_assoc; reflexivity.
        -- rewrite Hsplit. unfold eol_after; rewrite E1, E2; cbn [hd_or orb andb]. rewrite E3; cbn [negb orb].
           cbn [line_toks flat_map]. fold (line_toks (lines_aux [] (c2 :: t''))).
           rewrite IH by (try reflexivity; lia). cbn [app].
           rewrite map_app, <- !app_assoc; reflexivity.
      * rewrite IH.
        -- rewrite <- app_assoc; reflexivity.
        -- lia.
        -- rewrite nonl_app, Hcur; cbn. unfold is_nl; rewrite E1, E2; reflexivity.
Qed.

Lemma csv_read_toks f t : csv_read f t = read_toks f p0 (toks t).
Proof.
  unfold csv_read, csv_read_lines, lines.
  rewrite read_lines_toks, (lines_aux_toks (length t)) by (reflexivity || lia). reflexivity.
Qed.

(** ** Runs without emitted records *)
Inductive qsteps (f : fmt) : pst -> list tok -> pst -> Prop :=
| qs_nil p : qsteps f p [] p
| qs_cons p t p1 ts p2 :
    step f p t = Ok p1 -> (t = EOL -> rst p1 <> START_RECORD) ->
    qsteps f p1 ts p2 -> qsteps f p (t :: ts) p2.

Lemma qsteps_app f p a p1 b p2 :
  qsteps f p a p1 -> qsteps f p1 b p2 -> qsteps f p (a ++ b) p2.
Proof. induction 1; intros Hb; cbn; [exact Hb|]. econstructor; eauto. Qed.

Lemma qsteps_read f p a p1 b :
  qsteps f p a p1 -> read_toks f p (a ++ b) = read_toks f p1 b.
Proof.
  induction 1 as [|p t p1 ts p2 Hs Hr Hq IH]; [reflexivity|].
  cbn [app read_toks]. rewrite Hs. destruct t as [c|].
  - exact IH.
  - destruct (rst p1); try exact IH. exfalso; apply Hr; reflexivity.
Qed.

Lemma qsteps_one f p c p1 : step f p (TC c) = Ok p1 -> qsteps f p [TC c] p1.
Proof. intros H; econstructor; [exact H|discriminate|constructor]. Qed.

(** ** Encoded characters *)
Inductive item := IPlain (c : N) | IEsc (c : N) | IDbl (c : N).
Definition ichar (i : item) : N := match i with IPlain c | IEsc c | IDbl c => c end.
Definition itext (f : fmt) (i : item) : pystr :=
  match i with
  | IPlain c => [c]
  | IEsc c => match escapechar f with Some e => [e; c] | None => [c] end
  | IDbl c => [c; c]
  end.

(** well-formed formats: what is needed to tell the special characters apart *)
Record wf_fmt (f : fmt) : Prop := {
  wf_d_nl : is_nl (delim f) = false;
  wf_q_nl : forall q, quotechar f = Some q -> is_nl q = false;
  wf_e_nl : forall e, escapechar f = Some e -> is_nl e = false;
  wf_dq : forall q, quotechar f = Some q -> q <> delim f;
  wf_de : forall e, escapechar f = Some e -> e <> delim f;
  wf_qe : forall q e, quotechar f = Some q -> escapechar f = Some e -> q <> e;
  wf_quote : quotemode f <> QNone -> quotechar f <> None;
  wf_lt : lineterm f = [CR; LF] \/ lineterm f = [LF] \/ lineterm f = [CR];
  wf_ds : skipinitialspace f = true -> delim f <> SPACE;
}.

Definition ok_q (f : fmt) (i : item) : Prop :=
  match i with
  | IPlain c => is_oc (quotechar f) c = false /\ is_oc (escapechar f) c = false
  | IEsc c => escapechar f <> None
  | IDbl c => quotechar f = Some c /\ doublequote f = true
  end.
Definition ok_u (f : fmt) (i : item) : Prop :=
  match i with
  | IPlain c => is_nl c = false /\ c <> delim f /\ is_oc (escapechar f) c = false
                /\ is_oc (quotechar f) c && quotes_on f = false
  | IEsc c => escapechar f <> None
  | IDbl _ => False
  end.

Lemma is_oc_true o c : is_oc o c = true <-> o = Some c.
Proof.
  destruct o as [x|]; cbn; [|split; discriminate].
  destruct (N.eqb_spec c x); split; congruence.
Qed.
Lemma is_oc_false o c : is_oc o c = false <-> o <> Some c.
Proof. rewrite <- is_oc_true; destruct (is_oc o c); split; congruence. Qed.

Lemma eol_after_some c x : is_nl c = false -> eol_after c (Some x) = false.
Proof.
  unfold is_nl, eol_after; intros H; apply orb_false_iff in H; destruct H as [-> ->]; reflexivity.
Qed.

(** toks_ctx of a chunk followed by something *)
Lemma toks_ctx_cons_plain c s x :
  is_nl c = false ->
  toks_ctx (c :: s) (Some x) = TC c :: toks_ctx s (Some x).
Proof.
  intros H; cbn [toks_ctx].
  destruct s as [|y s]; rewrite (eol_after_some c _ H); reflexivity.
Qed.
Lemma toks_ctx_cons_any c s x :
  exists m, (m = [] \/ m = [EOL]) /\ toks_ctx (c :: s) (Some x) = TC c :: m ++ toks_ctx s (Some x).
Proof.
  cbn [toks_ctx]. destruct (eol_after _ _).
  - exists [EOL]; split; [right; reflexivity|reflexivity].
  - exists []; split; [left; reflexivity|reflexivity].
Qed.

Lemma add_char_ok f p c s : N.of_nat (length (field p)) < limit f ->
  add_char f p c s = Ok {| rst := s; field := field p ++ [c]; fields := fields p |}.
Proof. intros H; unfold add_char; apply N.ltb_lt in H; rewrite H; reflexivity. Qed.

Lemma quoted_body f its fl fs x :
  wf_fmt f -> quotes_on f = true -> quotechar f <> None ->
  Forall (ok_q f) its ->
  N.of_nat (length fl + length its) <= limit f ->
  qsteps f {| rst := IN_QUOTED_FIELD; field := fl; fields := fs |}
    (toks_ctx (flat_map (itext f) its) (Some x))
    {| rst := IN_QUOTED_FIELD; field := fl ++ map ichar its; fields := fs |}.
Proof.
  intros Hwf Hqo Hq Hok; revert fl; induction Hok as [|i its Hi Hits IH]; intros fl Hl.
  { cbn. rewrite app_nil_r. constructor. }
  cbn [length] in Hl.
  assert (Hlt : N.of_nat (length fl) < limit f) by lia.
  cbn [flat_map map].
  assert (Hrest : forall tl, 
    qsteps f {| rst := IN_QUOTED_FIELD; field := fl ++ [ichar i]; fields := fs |} (toks_ctx (flat_map (itext f) its) (Some x)) tl ->
    qsteps f {| rst := IN_QUOTED_FIELD; field := fl ++ [ichar i]; fields := fs |} (EOL :: toks_ctx (flat_map (itext f) its) (Some x)) tl).
  { intros tl H; econstructor; [reflexivity|discriminate|exact H]. }
  assert (IH' := IH (fl ++ [ichar i])). rewrite <- app_assoc in IH'; cbn [app] in IH'.
  rewrite app_length in IH'; cbn [length] in IH'.
  assert (Hl2 : N.of_nat (length fl + 1 + length its) <= limit f) by lia.
  specialize (IH' Hl2).
  destruct i as [c|c|c]; cbn [itext ichar ok_q] in *.
  - destruct Hi as [Hcq Hce]. cbn [app].
    destruct (toks_ctx_cons_any c (flat_map (itext f) its) x) as (m & Hm & ->).
    econstructor; [|discriminate|].
    + cbn [step rst]. rewrite Hce, Hcq. cbn [andb].
      rewrite add_char_ok by exact Hlt. reflexivity.
    + cbn [fields field]. destruct Hm as [-> | ->]; cbn [app]; [exact IH'|apply Hrest, IH'].
  - destruct (escapechar f) as [e|] eqn:He; [|congruence].
    cbn [app]. rewrite toks_ctx_cons_plain by (eapply wf_e_nl; eassumption).
    econstructor; [|discriminate|].
    + cbn [step rst]. rewrite He; cbn [is_oc]; rewrite N.eqb_refl. reflexivity.
    + destruct (toks_ctx_cons_any c (flat_map (itext f) its) x) as (m & Hm & ->).
      econstructor; [|discriminate|].
      * cbn [step rst]. rewrite add_char_ok by exact Hlt. reflexivity.
      * cbn [fields field]. destruct Hm as [-> | ->]; cbn [app]; [exact IH'|apply Hrest, IH'].
  - destruct Hi as [Hqc Hdq].
    cbn [app]. assert (Hnl := wf_q_nl f Hwf c Hqc).
    rewrite !toks_ctx_cons_plain by exact Hnl.
    econstructor; [|discriminate|].
    + cbn [step rst]. 
      destruct (is_oc (escapechar f) c) eqn:He.
      { apply is_oc_true in He. exfalso. eapply (wf_qe f Hwf); eauto. }
      assert (Hoc : is_oc (quotechar f) c = true) by (apply is_oc_true; exact Hqc).
      rewrite Hoc, Hqo, Hdq. reflexivity.
    + econstructor; [|discriminate|].
      * cbn [step rst]. 
        assert (Hoc : is_oc (quotechar f) c = true) by (apply is_oc_true; exact Hqc).
        rewrite Hoc, Hqo. cbn [andb].
        rewrite add_char_ok by exact Hlt. reflexivity.
      * exact IH'.
Qed.

(** unquoted body, once the field has begun *)
Lemma unquoted_body f its st fl fs x :
  wf_fmt f ->
  Forall (ok_u f) its ->
  (st = IN_FIELD \/ st = AFTER_ESCAPED_CRNL) ->
  N.of_nat (length fl + length its) <= limit f ->
  exists st', (st' = IN_FIELD \/ st' = AFTER_ESCAPED_CRNL) /\
  qsteps f {| rst := st; field := fl; fields := fs |}
    (toks_ctx (flat_map (itext f) its) (Some x))
    {| rst := st'; field := fl ++ map ichar its; fields := fs |}.
Proof.
  intros Hwf Hok; revert st fl; induction Hok as [|i its Hi Hits IH]; intros st fl Hst Hl.
  { cbn. rewrite app_nil_r. exists st; split; [exact Hst|constructor]. }
  cbn [length] in Hl.
  assert (Hlt : N.of_nat (length fl) < limit f) by lia.
  cbn [flat_map map].
  assert (Hl2 : N.of_nat (length (fl ++ [ichar i]) + length its) <= limit f)
    by (rewrite app_length; cbn [length]; lia).
  assert (Hin : forall c, step f {| rst := st; field := fl; fields := fs |} (TC c) =
                          do_in_field f {| rst := st; field := fl; fields := fs |} (TC c)).
  { intros c; destruct Hst as [-> | ->]; reflexivity. }
  destruct i as [c|c|c]; cbn [itext ichar ok_u] in *.
  - destruct Hi as (Hnl & Hd & He & _).
    destruct (IH st (fl ++ [c]) Hst Hl2) as (st' & Hst' & Hq).
    exists st'; split; [exact Hst'|].
    cbn [app]. rewrite toks_ctx_cons_plain by exact Hnl.
    econstructor; [|discriminate|].
    + rewrite Hin. cbn [do_in_field]. rewrite Hnl, He.
      apply N.eqb_neq in Hd; rewrite Hd. rewrite add_char_ok by exact Hlt. reflexivity.
    + cbn [rst field fields]. rewrite <- app_assoc in Hq. exact Hq.
  - destruct (escapechar f) as [e|] eqn:He; [|congruence].
    cbn [app]. rewrite toks_ctx_cons_plain by (eapply wf_e_nl; eassumption).
    assert (Henl := wf_e_nl f Hwf e He).
    set (st1 := if is_nl c then AFTER_ESCAPED_CRNL else IN_FIELD).
    assert (Hst1 : st1 = IN_FIELD \/ st1 = AFTER_ESCAPED_CRNL)
      by (unfold st1; destruct (is_nl c); tauto).
    destruct (IH st1 (fl ++ [c]) Hst1 Hl2) as (st' & Hst' & Hq).
    rewrite <- app_assoc in Hq; cbn [app] in Hq.
    exists st'; split; [exact Hst'|].
    econstructor; [|discriminate|].
    + rewrite Hin. cbn [do_in_field]. rewrite Henl, He; cbn [is_oc]; rewrite N.eqb_refl. reflexivity.
    + destruct (is_nl c) eqn:Hnl.
      * destruct (toks_ctx_cons_any c (flat_map (itext f) its) x) as (m & Hm & ->).
        econstructor; [|discriminate|].
        -- cbn [step rst]. rewrite Hnl, add_char_ok by exact Hlt. reflexivity.
        -- cbn [fields field].
           destruct Hm as [-> | ->]; cbn [app]; [exact Hq|].
           econstructor; [reflexivity|discriminate|exact Hq].
      * rewrite toks_ctx_cons_plain by exact Hnl.
        econstructor; [|discriminate|].
        -- cbn [step rst]. rewrite Hnl, add_char_ok by exact Hlt. reflexivity.
        -- exact Hq.
  - contradiction.
Qed.

(** [field_reads f t s]: the field text [t] is read as the cell [s]. *)
Inductive field_reads (f : fmt) : pystr -> pystr -> Prop :=
| fr_quoted q its :
    quotechar f = Some q -> quotes_on f = true -> Forall (ok_q f) its ->
    field_reads f (q :: flat_map (itext f) its ++ [q]) (map ichar its)
| fr_plain sp its :
    forallb (N.eqb SPACE) sp = true -> (sp <> [] -> skipinitialspace f = true) ->
    Forall (ok_u f) its ->
    (skipinitialspace f = true -> match its with IPlain c :: _ => c <> SPACE | _ => True end) ->
    field_reads f (sp ++ flat_map (itext f) its) (map ichar its).

(** states in which a finished field waits for its delimiter *)
Definition at_end (p : pst) : Prop :=
  match rst p with
  | START_FIELD => field p = []
  | IN_FIELD | AFTER_ESCAPED_CRNL | QUOTE_IN_QUOTED_FIELD => True
  | _ => False
  end.

Definition no_esc_space (f : fmt) : Prop :=
  forall e, escapechar f = Some e -> e <> SPACE.
Definition no_quote_space (f : fmt) : Prop :=
  forall q, quotechar f = Some q -> q <> SPACE.

Lemma field_run f t s fs x :
  wf_fmt f -> (skipinitialspace f = true -> no_esc_space f /\ no_quote_space f) ->
  field_reads f t s ->
  N.of_nat (length s) <= limit f ->
  exists p, at_end p /\ field p = s /\ fields p = fs /\
    qsteps f {| rst := START_FIELD; field := []; fields := fs |} (toks_ctx t (Some x)) p.
Proof.
  intros Hwf Hse Hr Hl. inversion Hr as [q its Hq Hqo Hok Ht Hs|sp its Hsp Hskip Hok Hfirst Ht Hs].
  - assert (Hqnl := wf_q_nl f Hwf q Hq).
    assert (Hoc : is_oc (quotechar f) q = true) by (apply is_oc_true; exact Hq).
    assert (He : is_oc (escapechar f) q = false).
    { apply is_oc_false; intros He. eapply (wf_qe f Hwf); eauto. }
    exists {| rst := if doublequote f then QUOTE_IN_QUOTED_FIELD else IN_FIELD;
              field := map ichar its; fields := fs |}.
    split; [unfold at_end; cbn; destruct (doublequote f); exact I|].
    split; [reflexivity|]. split; [reflexivity|].
    rewrite toks_ctx_cons_plain by exact Hqnl.
    econstructor; [|discriminate|].
    + cbn [step rst do_start_field]. rewrite Hqnl, Hoc, Hqo. reflexivity.
    + rewrite toks_ctx_app. cbn [hd_or toks_ctx]. rewrite (eol_after_some q x Hqnl).
      eapply qsteps_app.
      * apply quoted_body; auto; [congruence|].
        rewrite <- Hs in Hl; rewrite map_length in Hl. cbn. lia.
      * cbn [app]. apply qsteps_one. cbn [step rst]. rewrite He, Hoc, Hqo. cbn [andb].
        destruct (doublequote f); reflexivity.
  - clear Ht Hr.
    assert (Hspaces : qsteps f {| rst := START_FIELD; field := []; fields := fs |}
               (map TC sp) {| rst := START_FIELD; field := []; fields := fs |}).
    { destruct sp as [|c0 sp0] eqn:Esp; [constructor|].
      assert (Hsk : skipinitialspace f = true) by (apply Hskip; discriminate).
      destruct (Hse Hsk) as [Hesp Hqsp].
      rewrite <- Esp in Hsp |- *. clear Esp Hskip c0 sp0.
      induction sp as [|c sp IH]; [constructor|].
      cbn [forallb] in Hsp; apply andb_true_iff in Hsp; destruct Hsp as [Hc Hsp].
      apply N.eqb_eq in Hc; subst c.
      cbn [map]. econstructor; [|discriminate|apply IH, Hsp].
      cbn [step rst do_start_field]. change (is_nl SPACE) with false. cbn iota.
      assert (E1 : is_oc (quotechar f) SPACE = false)
        by (apply is_oc_false; intros E; apply (Hqsp _ E); reflexivity).
      assert (E2 : is_oc (escapechar f) SPACE = false)
        by (apply is_oc_false; intros E; apply (Hesp _ E); reflexivity).
      rewrite E1, E2, Hsk. cbn [andb]. change (SPACE =? SPACE) with true. reflexivity. }
    assert (Hspnl : forallb (fun c => negb (is_nl c)) sp = true).
    { clear -Hsp. induction sp as [|c sp IH]; [reflexivity|]. cbn [forallb] in *.
      apply andb_true_iff in Hsp; destruct Hsp as [Hc Hsp]. apply N.eqb_eq in Hc; subst c.
      rewrite IH by exact Hsp; reflexivity. }
    assert (Hctx : exists y, toks_ctx (sp ++ flat_map (itext f) its) (Some x) =
                   map TC sp ++ toks_ctx (flat_map (itext f) its) (Some x) /\ y = 0).
    { exists 0; split; [|reflexivity]. rewrite toks_ctx_app.
      destruct (flat_map (itext f) its); cbn [hd_or]; rewrite toks_ctx_nonl by exact Hspnl; reflexivity. }
    destruct Hctx as (_ & Hctx & _). rewrite Hctx. clear Hctx.
    rewrite <- Hs in Hl; rewrite map_length in Hl.
    destruct Hok as [|i its Hi Hits].
    + exists {| rst := START_FIELD; field := []; fields := fs |}.
      split; [reflexivity|]. split; [reflexivity|]. split; [reflexivity|].
      cbn [flat_map toks_ctx]. rewrite app_nil_r. exact Hspaces.
    + cbn [length] in Hl.
      assert (H0 : N.of_nat (length (@nil N)) < limit f) by (cbn; lia).
      cbn [flat_map map].
      destruct i as [c|c|c]; cbn [itext ichar ok_u] in *; [| |contradiction].
      * destruct Hi as (Hnl & Hd & He & Hq).
        destruct (unquoted_body f its IN_FIELD [c] fs x Hwf Hits (or_introl eq_refl)) as (st' & Hst' & Hrun).
        { cbn; lia. }
        exists {| rst := st'; field := c :: map ichar its; fields := fs |}.
        split; [unfold at_end; cbn; destruct Hst' as [-> | ->]; exact I|].
        split; [reflexivity|]. split; [reflexivity|].
        eapply qsteps_app; [exact Hspaces|].
        cbn [app]. rewrite toks_ctx_cons_plain by exact Hnl.
        econstructor; [|discriminate|exact Hrun].
        cbn [step rst do_start_field]. rewrite Hnl, He, Hq.
        apply N.eqb_neq in Hd; rewrite Hd.
        destruct (skipinitialspace f) eqn:Hsk.
        -- assert (Hc := Hfirst eq_refl). apply N.eqb_neq in Hc; rewrite Hc. cbn [andb].
           rewrite add_char_ok by exact H0. reflexivity.
        -- rewrite andb_false_r. rewrite add_char_ok by exact H0. reflexivity.
      * destruct (escapechar f) as [e|] eqn:He; [|congruence].
        assert (Henl := wf_e_nl f Hwf e He).
        set (st1 := if is_nl c then AFTER_ESCAPED_CRNL else IN_FIELD).
        assert (Hst1 : st1 = IN_FIELD \/ st1 = AFTER_ESCAPED_CRNL)
          by (unfold st1; destruct (is_nl c); tauto).
        destruct (unquoted_body f its st1 [c] fs x Hwf Hits Hst1) as (st' & Hst' & Hrun).
        { cbn; lia. }
        exists {| rst := st'; field := c :: map ichar its; fields := fs |}.
        split; [unfold at_end; cbn; destruct Hst' as [-> | ->]; exact I|].
        split; [reflexivity|]. split; [reflexivity|].
        eapply qsteps_app; [exact Hspaces|].
        cbn [app]. rewrite toks_ctx_cons_plain by exact Henl.
        econstructor; [|discriminate|].
        -- cbn [step rst do_start_field]. rewrite Henl.
           assert (Eq : is_oc (quotechar f) e = false).
           { apply is_oc_false; intros E. eapply (wf_qe f Hwf); eauto. }
           rewrite Eq, He. cbn [andb is_oc]. rewrite N.eqb_refl. reflexivity.
        -- destruct (is_nl c) eqn:Hnl.
           ++ destruct (toks_ctx_cons_any c (flat_map (itext f) its) x) as (m & Hm & ->).
              econstructor; [|discriminate|].
              ** cbn [step rst]. rewrite Hnl, add_char_ok by exact H0. reflexivity.
              ** cbn [fields field].
                 destruct Hm as [-> | ->]; cbn [app]; [exact Hrun|].
                 econstructor; [reflexivity|discriminate|exact Hrun].
           ++ rewrite toks_ctx_cons_plain by exact Hnl.
              econstructor; [|discriminate|].
              ** cbn [step rst]. rewrite Hnl, add_char_ok by exact H0. reflexivity.
              ** exact Hrun.
Qed.

(** delimiter after a finished field *)
Lemma at_end_delim f p :
  wf_fmt f -> at_end p ->
  step f p (TC (delim f)) = Ok {| rst := START_FIELD; field := []; fields := fields p ++ [field p] |}.
Proof.
  intros Hwf Hp. destruct p as [s fl fs]; unfold at_end in Hp; cbn [rst field fields] in *.
  assert (Hq : is_oc (quotechar f) (delim f) = false).
  { apply is_oc_false; intros E; apply (wf_dq f Hwf _ E); reflexivity. }
  assert (He : is_oc (escapechar f) (delim f) = false).
  { apply is_oc_false; intros E; apply (wf_de f Hwf _ E); reflexivity. }
  assert (Hnl := wf_d_nl f Hwf).
  assert (Hsp : (delim f =? SPACE) && skipinitialspace f = false).
  { destruct (skipinitialspace f) eqn:Hk; [|apply andb_false_r].
    assert (H := wf_ds f Hwf Hk). apply N.eqb_neq in H; rewrite H; reflexivity. }
  destruct s; try contradiction; cbn [step rst do_start_field do_in_field];
    rewrite ?Hnl, ?Hq, ?He, ?Hsp, ?N.eqb_refl, ?andb_false_r; try reflexivity.
Qed.

Lemma at_end_nl f p c :
  wf_fmt f -> at_end p -> is_nl c = true ->
  step f p (TC c) = Ok {| rst := EAT_CRNL; field := []; fields := fields p ++ [field p] |}.
Proof.
  intros Hwf Hp Hc. destruct p as [s fl fs]; unfold at_end in Hp; cbn [rst field fields] in *.
  assert (Hq : is_oc (quotechar f) c = false).
  { apply is_oc_false; intros E; rewrite (wf_q_nl f Hwf _ E) in Hc; discriminate. }
  assert (Hd : c =? delim f = false).
  { apply N.eqb_neq; intros E; subst c. rewrite (wf_d_nl f Hwf) in Hc; discriminate. }
  destruct s; try contradiction; cbn [step rst do_start_field do_in_field];
    rewrite ?Hc, ?Hq, ?Hd, ?andb_false_r; reflexivity.
Qed.

(** the line terminator after a finished row *)
Lemma eat_lineterm f fs nxt rest :
  wf_fmt f -> (lineterm f = [CR] -> nxt <> Some LF) ->
  forall p, (forall c, is_nl c = true -> step f p (TC c) = Ok {| rst := EAT_CRNL; field := []; fields := fs |}) ->
  read_toks f p (toks_ctx (lineterm f) nxt ++ rest) =
  (let r := read_toks f p0 rest in (fs :: fst r, snd r)).
Proof.
  intros Hwf Hn p Hp.
  assert (Heol : forall ts, read_toks f {| rst := EAT_CRNL; field := []; fields := fs |} (EOL :: ts) =
     (let r := read_toks f p0 ts in (fs :: fst r, snd r))) by reflexivity.
  destruct (wf_lt f Hwf) as [Hl|[Hl|Hl]]; rewrite Hl in *.
  - cbn [toks_ctx]. change (eol_after CR (Some LF)) with false. cbn iota.
    assert (E : eol_after LF nxt = true) by reflexivity. rewrite E.
    cbn [app]. 
    change (read_toks f p (TC CR :: TC LF :: EOL :: rest)) with
      (match step f p (TC CR) with Err e => ([], Some e)
       | Ok p' => read_toks f p' (TC LF :: EOL :: rest) end).
    rewrite Hp by reflexivity.
    change (read_toks f {| rst := EAT_CRNL; field := []; fields := fs |} (TC LF :: EOL :: rest))
      with (read_toks f {| rst := EAT_CRNL; field := []; fields := fs |} (EOL :: rest)).
    apply Heol.
  - cbn [toks_ctx]. assert (E : eol_after LF nxt = true) by reflexivity. rewrite E.
    cbn [app].
    change (read_toks f p (TC LF :: EOL :: rest)) with
      (match step f p (TC LF) with Err e => ([], Some e)
       | Ok p' => read_toks f p' (EOL :: rest) end).
    rewrite Hp by reflexivity. apply Heol.
  - cbn [toks_ctx].
    assert (E : eol_after CR nxt = true).
    { unfold eol_after. change (CR =? LF) with false; change (CR =? CR) with true; cbn [orb andb].
      destruct nxt as [y|]; [|reflexivity].
      destruct (N.eqb_spec y LF) as [->|_]; [exfalso; apply Hn; reflexivity|reflexivity]. }
    rewrite E. cbn [app].
    change (read_toks f p (TC CR :: EOL :: rest)) with
      (match step f p (TC CR) with Err e => ([], Some e)
       | Ok p' => read_toks f p' (EOL :: rest) end).
    rewrite Hp by reflexivity. apply Heol.
Qed.

Lemma lineterm_hd f b n : wf_fmt f -> exists c, hd_or (lineterm f ++ b) n = Some c /\ is_nl c = true.
Proof.
  intros Hwf; destruct (wf_lt f Hwf) as [H|[H|H]]; rewrite H; eexists; split; reflexivity.
Qed.

(** remaining fields of a row, starting in START_FIELD *)
Lemma fields_run f ts ss fs rest nxt :
  wf_fmt f -> (skipinitialspace f = true -> no_esc_space f /\ no_quote_space f) ->
  (lineterm f = [CR] -> nxt <> Some LF) ->
  Forall2 (field_reads f) ts ss -> ts <> [] ->
  Forall (fun s => N.of_nat (length s) <= limit f) ss ->
  read_toks f {| rst := START_FIELD; field := []; fields := fs |}
    (toks_ctx (wjoin (delim f) ts ++ lineterm f) nxt ++ rest) =
  (let r := read_toks f p0 rest in ((fs ++ ss) :: fst r, snd r)).
Proof.
  intros Hwf Hse Hn Hr; revert fs; induction Hr as [|t s ts ss Hts Hr IH]; intros fs Hne Hl; [congruence|].
  inversion Hl as [|s' ss' Hl1 Hl2]; subst s' ss'.
  destruct ts as [|t2 ts].
  - inversion Hr; subst ss. cbn [wjoin].
    rewrite toks_ctx_app. destruct (lineterm_hd f [] nxt Hwf) as (c & Hc & Hnl).
    rewrite app_nil_r in Hc; rewrite Hc.
    destruct (field_run f t s fs c Hwf Hse Hts Hl1) as (p & Hpe & Hpf & Hpfs & Hq).
    rewrite <- app_assoc. rewrite (qsteps_read _ _ _ _ _ Hq).
    apply eat_lineterm; auto. intros c' Hc'. rewrite at_end_nl by assumption.
    rewrite Hpf, Hpfs; reflexivity.
  - change (wjoin (delim f) (t :: t2 :: ts)) with (t ++ delim f :: wjoin (delim f) (t2 :: ts)).
    rewrite <- app_assoc; cbn [app]. rewrite toks_ctx_app. cbn [hd_or].
    destruct (field_run f t s fs (delim f) Hwf Hse Hts Hl1) as (p & Hpe & Hpf & Hpfs & Hq).
    rewrite <- app_assoc. rewrite (qsteps_read _ _ _ _ _ Hq).
    set (tl := wjoin (delim f) (t2 :: ts) ++ lineterm f).
    assert (Htl : toks_ctx (delim f :: tl) nxt = TC (delim f) :: toks_ctx tl nxt).
    { assert (Hx : exists y l, tl = y :: l).
      { unfold tl. destruct (wjoin (delim f) (t2 :: ts)) as [|y l].
        - destruct (wf_lt f Hwf) as [H|[H|H]]; rewrite H; cbn; eauto.
        - cbn; eauto. }
      destruct Hx as (y & l & ->). cbn [toks_ctx].
      rewrite (eol_after_some (delim f) y (wf_d_nl f Hwf)). reflexivity. }
    rewrite Htl. cbn [app read_toks]. rewrite at_end_delim by assumption.
    fold (read_toks f). cbn iota. rewrite Hpf, Hpfs. unfold tl.
    rewrite IH by (assumption || discriminate).
    rewrite <- app_assoc; reflexivity.
Qed.

Lemma start_record_field f c ts :
  is_nl c = false ->
  read_toks f p0 (TC c :: ts) = read_toks f {| rst := START_FIELD; field := []; fields := [] |} (TC c :: ts).
Proof. intros H. cbn [read_toks step p0 rst]. rewrite H. reflexivity. Qed.

(** first character of a field text *)
Lemma field_text_hd f t s c : wf_fmt f -> field_reads f t s -> hd_or t None = Some c -> is_nl c = false.
Proof.
  intros Hwf Hr Hc. destruct Hr as [q its Hq Hqo Hok|sp its Hsp Hskip Hok Hfirst].
  - cbn in Hc; injection Hc as <-. eapply wf_q_nl; eassumption.
  - destruct sp as [|c0 sp].
    + destruct Hok as [|i its Hi Hits]; [discriminate|].
      destruct i as [d|d|d]; cbn in Hi, Hc.
      * injection Hc as <-; apply Hi.
      * destruct (escapechar f) as [e|] eqn:He; [|congruence].
        injection Hc as <-. eapply wf_e_nl; eassumption.
      * contradiction.
    + cbn in Hc; injection Hc as <-. cbn [forallb] in Hsp. apply andb_true_iff in Hsp; destruct Hsp as [H _].
      apply N.eqb_eq in H; rewrite <- H; reflexivity.
Qed.

(** a whole row; the text of a row with fields is not empty *)
Inductive row_reads (f : fmt) : pystr -> list pystr -> Prop :=
| rr_nil : row_reads f [] []
| rr_cons ts ss : Forall2 (field_reads f) ts ss -> wjoin (delim f) ts <> [] ->
                  row_reads f (wjoin (delim f) ts) ss.

Lemma wjoin_hd f ts ss c : wf_fmt f -> Forall2 (field_reads f) ts ss ->
  hd_or (wjoin (delim f) ts) None = Some c -> is_nl c = false.
Proof.
  intros Hwf Hr Hc. destruct Hr as [|t s ts ss Ht Hr]; [discriminate|].
  destruct ts as [|t2 ts].
  - cbn [wjoin] in Hc. eapply field_text_hd; eassumption.
  - change (wjoin (delim f) (t :: t2 :: ts)) with (t ++ delim f :: wjoin (delim f) (t2 :: ts)) in Hc.
    destruct t as [|x t].
    + cbn in Hc; injection Hc as <-. apply (wf_d_nl f Hwf).
    + cbn [app hd_or] in Hc. injection Hc as <-. eapply field_text_hd; [exact Hwf|exact Ht|reflexivity].
Qed.

Lemma row_run f text ss rest nxt :
  wf_fmt f -> (skipinitialspace f = true -> no_esc_space f /\ no_quote_space f) ->
  (lineterm f = [CR] -> nxt <> Some LF) ->
  row_reads f text ss ->
  Forall (fun s => N.of_nat (length s) <= limit f) ss ->
  read_toks f p0 (toks_ctx (text ++ lineterm f) nxt ++ rest) =
  (let r := read_toks f p0 rest in (ss :: fst r, snd r)).
Proof.
  intros Hwf Hse Hn Hr Hl. destruct Hr as [|ts ss Hr Hne].
  - cbn [app]. apply eat_lineterm; auto. intros c Hc. cbn [step p0 rst]. rewrite Hc. reflexivity.
  - destruct (wjoin (delim f) ts) as [|c w] eqn:Ew; [congruence|].
    assert (Hc : is_nl c = false).
    { eapply wjoin_hd; [exact Hwf|exact Hr|rewrite Ew; reflexivity]. }
    assert (Hts : ts <> []) by (intros ->; discriminate).
    assert (Hf := fields_run f ts ss [] rest nxt Hwf Hse Hn Hr Hts Hl).
    rewrite Ew in Hf. cbn [app] in Hf |- *. cbn [toks_ctx] in Hf |- *. cbn [app] in Hf |- *.
    rewrite start_record_field by exact Hc. exact Hf.
Qed.

Fixpoint rows_text (f : fmt) (texts : list pystr) : pystr :=
  match texts with [] => [] | t :: ts => t ++ lineterm f ++ rows_text f ts end.

Lemma rows_text_hd f texts sss : wf_fmt f -> Forall2 (row_reads f) texts sss ->
  lineterm f = [CR] -> hd_or (rows_text f texts) None <> Some LF.
Proof.
  intros Hwf Hr Hl. destruct Hr as [|t s ts ss Ht Hr]; [discriminate|].
  cbn [rows_text]. destruct Ht as [|ts' ss' Hts Hne].
  - rewrite Hl. cbn. discriminate.
  - destruct (wjoin (delim f) ts') as [|c w] eqn:Ew; [congruence|].
    cbn [app hd_or]. intros E; injection E as ->.
    assert (H : is_nl LF = false).
    { eapply wjoin_hd; [exact Hwf|exact Hts|rewrite Ew; reflexivity]. }
    discriminate.
Qed.

Theorem rows_run f texts sss :
  wf_fmt f -> (skipinitialspace f = true -> no_esc_space f /\ no_quote_space f) ->
  Forall2 (row_reads f) texts sss ->
  Forall (Forall (fun s => N.of_nat (length s) <= limit f)) sss ->
  csv_read f (rows_text f texts) = (sss, None).
Proof.
  intros Hwf Hse Hr Hl. rewrite csv_read_toks.
  induction Hr as [|t s ts ss Ht Hr IH]; [reflexivity|].
  inversion Hl as [|s' ss' Hl1 Hl2]; subst s' ss'.
  cbn [rows_text]. rewrite app_assoc. unfold toks. rewrite toks_ctx_app.
  rewrite (row_run f t s _ _ Hwf Hse).
  - cbv zeta. fold (toks (rows_text f ts)). rewrite (IH Hl2). reflexivity.
  - intros Hcr. eapply rows_text_hd; eassumption.
  - exact Ht.
  - exact Hl1.
Qed.
