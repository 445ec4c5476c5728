(** Proofs for C52. *)
From Verif Require Import PyStr PyCsv Dsv Column Schema Table TableSpec TableProofs5 TableProofs6 PyCsvProofs PyCsvRound DsvSpec DsvProofs DsvProofs2 Zip ZipSpec FrictionlessProofs2.

(** *** Lines *)
Definition flat (s : pystr) : Prop := ~ In CR s /\ ~ In LF s.
Lemma universal_app a t : ~ In CR a -> universal (a ++ t) = a ++ universal t.
Proof. induction a as [|c a IH]; intros N; [reflexivity|]. cbn [app universal]. destruct (c =? CR) eqn:E; [apply N.eqb_eq in E; subst; exfalso; apply N; left; reflexivity|]. rewrite IH; [reflexivity|]. intros X. apply N. right. exact X. Qed.
Lemma universal_flat a : ~ In CR a -> universal a = a.
Proof. intros N. rewrite <- (app_nil_r a) at 1. rewrite universal_app by exact N. apply app_nil_r. Qed.
Inductive is_line : pystr -> pystr -> Prop :=
| il_none b : flat b -> is_line b b
| il_lf b : flat b -> is_line (b ++ [LF]) (b ++ [LF])
| il_cr b : flat b -> is_line (b ++ [CR]) (b ++ [LF])
| il_crlf b : flat b -> is_line (b ++ [CR; LF]) (b ++ [LF]).
Lemma lines_universal_aux n : forall t cur, (length t <= n)%nat -> flat cur -> Forall2 is_line (lines_aux cur t) (lines_aux cur (universal t)).
Proof.
  induction n as [|n IH]; intros t cur L Fc.
  { destruct t; [|cbn in L; lia]. cbn [lines_aux universal]. destruct cur as [|c cur]; constructor; [|constructor]. apply il_none, Fc. }
  destruct t as [|c t]; [cbn [lines_aux universal]; destruct cur as [|c cur]; constructor; [|constructor]; apply il_none, Fc|]. cbn [length] in L. assert (F0 : flat []) by (split; intros []).
  cbn [lines_aux universal]. destruct (c =? CR) eqn:Ec.
  - apply N.eqb_eq in Ec. subst c. cbn [lines_aux]. change (CR =? LF) with false. change (LF =? LF) with true. cbn iota. destruct t as [|c2 t].
    + cbn [lines_aux]. repeat constructor; apply Fc.
    + cbn [length] in L. destruct (c2 =? LF) eqn:E2.
      * apply N.eqb_eq in E2. subst c2. constructor; [apply il_crlf, Fc|apply IH; [lia|exact F0]].
      * constructor; [apply il_cr, Fc|]. apply IH; [cbn [length]; lia|exact F0].
  - cbn [lines_aux]. rewrite Ec. destruct (c =? LF) eqn:El.
    + apply N.eqb_eq in El. subst c. constructor; [apply il_lf, Fc|apply IH; [lia|exact F0]].
    + apply IH; [lia|]. destruct Fc as [F1 F2]. split; intros X; apply in_app_iff in X; destruct X as [X|[X|[]]]; try contradiction; subst c; [rewrite N.eqb_refl in Ec|rewrite N.eqb_refl in El]; discriminate.
Qed.
Lemma lines_universal t : Forall2 is_line (lines t) (lines (universal t)).
Proof. apply (lines_universal_aux (length t)); [lia|split; intros []]. Qed.

(** *** The parser *)
Section Parser.
Variable f : fmt.
Hypothesis Hd : delim f <> CR /\ delim f <> LF.
Hypothesis Hq : forall q, quotechar f = Some q -> q <> CR /\ q <> LF.
Hypothesis He : forall e, escapechar f = Some e -> e <> CR /\ e <> LF.
Definition has_cr (p : pst) : Prop := In CR (field p) \/ exists x, In x (fields p) /\ In CR x.
Lemma step_cr p t p' : step f p t = Ok p' -> has_cr p -> has_cr p'.
Proof.
  assert (S : forall s q, save_field p s = Ok q -> has_cr p -> has_cr q).
  { intros s q E H. apply Ok_inj in E. subst q. destruct H as [H|(x & I & H)]; right; cbn [fields]; [exists (field p); split; [apply in_app_iff; right; left; reflexivity|exact H]|exists x; split; [apply in_app_iff; left; exact I|exact H]]. }
  assert (G : forall s q, goto p s = Ok q -> has_cr p -> has_cr q) by (intros s q E H; apply Ok_inj in E; subst q; exact H).
  assert (A : forall c s q, add_char f p c s = Ok q -> has_cr p -> has_cr q).
  { intros c s q E H. unfold add_char in E. destruct (_ <? _); [|discriminate E]. apply Ok_inj in E. subst q. destruct H as [H|H]; [left; cbn [field]; apply in_app_iff; left; exact H|right; exact H]. }
  assert (O : forall q, Ok p = Ok q -> has_cr p -> has_cr q) by (intros q E H; apply Ok_inj in E; subst q; exact H).
  unfold step, do_start_field, do_in_field. intros E. destruct (rst p), t as [c|];
    repeat match type of E with context [if ?b then _ else _] => destruct b end; try discriminate E; eauto.
Qed.
Lemma steps_cr ts : forall p p', steps f p ts = Ok p' -> has_cr p -> has_cr p'.
Proof. induction ts as [|t ts IH]; intros p p' E H; cbn [steps] in E; [apply Ok_inj in E; subst; exact H|]. apply bind_inv in E. destruct E as (q & E1 & E2). eapply IH; [exact E2|]. eapply step_cr; eassumption. Qed.
Lemma steps_app a : forall p b, steps f p (a ++ b) = (q <- steps f p a ;; steps f q b).
Proof. induction a as [|t a IH]; intros p b; [reflexivity|]. cbn [app steps]. destruct (step f p t); [cbn [bind]; apply IH|reflexivity]. Qed.
Lemma oc_nl o : (forall x, o = Some x -> x <> CR /\ x <> LF) -> is_oc o CR = false /\ is_oc o LF = false.
Proof. intros H. destruct o as [x|]; [|split; reflexivity]. destruct (H x eq_refl) as [H1 H2]. cbn [is_oc]. rewrite !N.eqb_neq. split; congruence. Qed.
Lemma nl_cr : is_nl CR = true. Proof. reflexivity. Qed.
Lemma nl_lf : is_nl LF = true. Proof. reflexivity. Qed.
Lemma d_cr : (CR =? delim f) = false. Proof. apply N.eqb_neq. destruct Hd. congruence. Qed.
Lemma d_lf : (LF =? delim f) = false. Proof. apply N.eqb_neq. destruct Hd. congruence. Qed.
Lemma added_cr q s ts p' : (q' <- add_char f q CR s ;; steps f q' ts) = Ok p' -> has_cr p'.
Proof. intros E. apply bind_inv in E. destruct E as (q' & E1 & E2). eapply steps_cr; [exact E2|]. unfold add_char in E1. destruct (_ <? _); [|discriminate E1]. apply Ok_inj in E1. subst q'. left. cbn [field]. apply in_app_iff. right. left. reflexivity. Qed.
Definition nl_step (q : pst) (c : N) : res pst :=
  match rst q with
  | START_RECORD => goto q EAT_CRNL
  | START_FIELD | IN_FIELD | AFTER_ESCAPED_CRNL | QUOTE_IN_QUOTED_FIELD => save_field q EAT_CRNL
  | ESCAPED_CHAR => add_char f q c AFTER_ESCAPED_CRNL
  | IN_QUOTED_FIELD | ESCAPE_IN_QUOTED_FIELD => add_char f q c IN_QUOTED_FIELD
  | EAT_CRNL => Ok q
  end.
Lemma step_nl q c : c = CR \/ c = LF -> step f q (TC c) = nl_step q c.
Proof.
  intros H. destruct (oc_nl _ Hq) as [Q1 Q2], (oc_nl _ He) as [E1 E2]. pose proof d_cr as D1. pose proof d_lf as D2. unfold step, nl_step, do_start_field, do_in_field.
  destruct H as [-> | ->]; destruct (rst q); rewrite ?nl_cr, ?nl_lf, ?Q1, ?Q2, ?E1, ?E2, ?D1, ?D2, ?Bool.andb_false_r; cbn [andb]; reflexivity.
Qed.
Lemma end_cr q more p' : more = [] \/ more = [TC LF] -> steps f q (TC CR :: more ++ [EOL]) = Ok p' -> ~ has_cr p' -> steps f q [TC LF; EOL] = Ok p'.
Proof.
  intros M E N. cbn [steps] in *. rewrite step_nl in * by auto. unfold nl_step in *. destruct (rst q) eqn:R; try (apply added_cr in E; contradiction).
  all: unfold save_field, goto in *; cbn [bind] in *; destruct M as [-> | ->]; cbn [app steps] in *; rewrite ?(step_nl _ LF (or_intror eq_refl)) in E; unfold nl_step in E; cbn [rst bind] in E; rewrite ?R in E; cbn [bind] in E; exact E.
Qed.
Lemma line_sim l l' p p' : is_line l l' -> steps f p (map TC l ++ [EOL]) = Ok p' -> ~ has_cr p' -> steps f p (map TC l' ++ [EOL]) = Ok p'.
Proof.
  intros L E N. destruct L as [b Fb|b Fb|b Fb|b Fb]; try exact E; rewrite map_app, <- app_assoc, steps_app in *; apply bind_inv in E; destruct E as (q & E1 & E2); rewrite E1; cbn [bind map app] in *.
  - apply (end_cr q []); [left; reflexivity|exact E2|exact N].
  - apply (end_cr q [TC LF]); [right; reflexivity|exact E2|exact N].
Qed.
(** *** No carriage return is lost *)
Definition after_ok (p : pst) : Prop := rst p = AFTER_ESCAPED_CRNL -> field p <> [].
Lemma step_after p t p' : step f p t = Ok p' -> after_ok p -> after_ok p'.
Proof.
  unfold after_ok. intros E A. assert (S : forall s q, s <> AFTER_ESCAPED_CRNL -> save_field p s = Ok q -> rst q = AFTER_ESCAPED_CRNL -> field q <> []) by (intros s q Hs X Y; apply Ok_inj in X; subst q; cbn [rst] in Y; congruence).
  assert (G : forall s q, s <> AFTER_ESCAPED_CRNL -> goto p s = Ok q -> rst q = AFTER_ESCAPED_CRNL -> field q <> []) by (intros s q Hs X Y; apply Ok_inj in X; subst q; cbn [rst] in Y; congruence).
  assert (C : forall c s q, add_char f p c s = Ok q -> rst q = AFTER_ESCAPED_CRNL -> field q <> []).
  { intros c s q X _. unfold add_char in X. destruct (_ <? _); [|discriminate X]. apply Ok_inj in X. subst q. cbn [field]. intros Z. symmetry in Z. apply app_cons_not_nil in Z. exact Z. }
  assert (O : forall q, Ok p = Ok q -> rst q = AFTER_ESCAPED_CRNL -> field q <> []) by (intros q X Y; apply Ok_inj in X; subst q; auto).
  revert E. unfold step, do_start_field, do_in_field. intros E. destruct (rst p), t as [c|];
    repeat match type of E with context [if ?b then _ else _] => destruct b end; try discriminate E; try (eapply O; exact E); try (eapply C; exact E); try (eapply S; [|exact E]; discriminate); try (eapply G; [|exact E]; discriminate).
Qed.
Lemma steps_after ts : forall p p', steps f p ts = Ok p' -> after_ok p -> after_ok p'.
Proof. induction ts as [|t ts IH]; intros p p' E H; cbn [steps] in E; [apply Ok_inj in E; subst; exact H|]. apply bind_inv in E. destruct E as (q & E1 & E2). eapply IH; [exact E2|]. eapply step_after; eassumption. Qed.
Definition clean (p : pst) : Prop := rst p = START_RECORD \/ rst p = START_FIELD \/ rst p = EAT_CRNL -> field p = [].
Lemma step_clean p t p' : step f p t = Ok p' -> clean p -> clean p'.
Proof.
  unfold clean. intros E A. assert (S : forall s q, save_field p s = Ok q -> field q = []) by (intros s q X; apply Ok_inj in X; subst q; reflexivity).
  assert (G : forall s q, s <> START_RECORD -> s <> START_FIELD -> s <> EAT_CRNL -> goto p s = Ok q -> rst q = START_RECORD \/ rst q = START_FIELD \/ rst q = EAT_CRNL -> field q = []) by (intros s q S1 S2 S3 X [Y|[Y|Y]]; apply Ok_inj in X; subst q; cbn [rst] in Y; congruence).
  assert (G2 : forall s q, field p = [] -> goto p s = Ok q -> field q = []) by (intros s q Z X; apply Ok_inj in X; subst q; exact Z).
  assert (C : forall c s q, s <> START_RECORD -> s <> START_FIELD -> s <> EAT_CRNL -> add_char f p c s = Ok q -> rst q = START_RECORD \/ rst q = START_FIELD \/ rst q = EAT_CRNL -> field q = []).
  { intros c s q S1 S2 S3 X Y. unfold add_char in X. destruct (_ <? _); [|discriminate X]. apply Ok_inj in X. subst q. cbn [rst] in Y. destruct Y as [Y|[Y|Y]]; congruence. }
  assert (O : forall q, Ok p = Ok q -> rst q = START_RECORD \/ rst q = START_FIELD \/ rst q = EAT_CRNL -> field q = []) by (intros q X Y; apply Ok_inj in X; subst q; auto).
  revert E. unfold step, do_start_field, do_in_field. intros E. destruct (rst p) eqn:R, t as [c|];
    repeat match type of E with context [if ?b then _ else _] => destruct b end; try discriminate E; try (eapply O; exact E);
    try (intros _; eapply S; exact E); try (eapply C; [| | |exact E]; discriminate); try (eapply G; [| | |exact E]; discriminate); try (intros _; eapply G2; [apply A; auto|exact E]).
Qed.
Lemma steps_clean ts : forall p p', steps f p ts = Ok p' -> clean p -> clean p'.
Proof. induction ts as [|t ts IH]; intros p p' E H; cbn [steps] in E; [apply Ok_inj in E; subst; exact H|]. apply bind_inv in E. destruct E as (q & E1 & E2). eapply IH; [exact E2|]. eapply step_clean; eassumption. Qed.
Definition pending (p : pst) : Prop := rst p = START_RECORD \/ rst p = IN_QUOTED_FIELD \/ field p <> [].
Lemma eol_pending p ts p' : steps f p (ts ++ [EOL]) = Ok p' -> after_ok p -> pending p'.
Proof.
  intros E A. rewrite steps_app in E. apply bind_inv in E. destruct E as (q & E1 & E2). apply steps_after in E1; [|exact A]. cbn [steps] in E2. apply bind_inv in E2. destruct E2 as (r & E2 & E3). apply Ok_inj in E3. subst r. clear A.
  assert (C : forall c s, add_char f q c s = Ok p' -> field p' <> []).
  { intros c s X. unfold add_char in X. destruct (_ <? _); [|discriminate X]. apply Ok_inj in X. subst p'. cbn [field]. intros Z. symmetry in Z. apply app_cons_not_nil in Z. exact Z. }
  unfold pending, after_ok in *. unfold step, do_start_field, do_in_field in E2. destruct (rst q) eqn:R; try (apply C in E2; auto; fail); apply Ok_inj in E2; subst p'; cbn [rst field]; auto.
Qed.
Lemma cr_comes_out ls : forall p rows, after_ok p -> clean p -> pending p -> (rst p = START_RECORD -> p = p0) -> has_cr p -> read_lines f p ls = (rows, None) -> exists row cell, In row rows /\ In cell row /\ In CR cell.
Proof.
  assert (X0 : forall p : pst, (rst p = START_RECORD -> p = p0) -> has_cr p -> rst p = START_RECORD -> False).
  { intros p H C R. rewrite (H R) in C. destruct C as [[]|(x & [] & _)]. }
  induction ls as [|l ls IH]; intros p rows A K P P0 C E; cbn [read_lines] in E.
  - destruct (negb _ || _) eqn:B.
    + destruct (strict f); [discriminate E|]. injection E as <-. destruct C as [C|(x & I & C)]; eexists; [exists (field p)|exists x]; (split; [left; reflexivity|]); (split; [apply in_app_iff|exact C]); [right; left; reflexivity|left; exact I].
    + apply Bool.orb_false_iff in B. destruct B as [B1 B2]. destruct P as [P|[P|P]]; [contradiction (X0 p P0 C P)|rewrite P in B2; discriminate B2|]. destruct (field p); [contradiction|discriminate B1].
  - destruct (steps f p (map TC l ++ [EOL])) as [p'|] eqn:S; [|discriminate E]. pose proof (steps_cr _ _ _ S C) as C'. pose proof (steps_after _ _ _ S A) as A'. pose proof (eol_pending _ _ _ S A) as P'. pose proof (steps_clean _ _ _ S K) as K'. destruct (rst p') eqn:R;
      try (eapply IH; [exact A'|exact K'|exact P'|rewrite R; discriminate|exact C'|exact E]; fail).
    destruct (read_lines f p0 ls) as [rs e]. cbn [fst snd] in E. injection E as <- _.
    destruct C' as [C'|(x & I & C')]; [|exists (fields p'), x; split; [left; reflexivity|split; assumption]]. rewrite (K' (or_introl R)) in C'. destruct C'.
Qed.
Lemma read_sim ls ls' : Forall2 is_line ls ls' -> forall p rows, after_ok p -> clean p -> read_lines f p ls = (rows, None) -> no_cr rows -> read_lines f p ls' = (rows, None).
Proof.
  induction 1 as [|l l' ls ls' L H IH]; intros p rows A K E N; [exact E|]. cbn [read_lines] in *. destruct (steps f p (map TC l ++ [EOL])) as [p'|] eqn:S; [|discriminate E].
  pose proof (steps_after _ _ _ S A) as A'. pose proof (eol_pending _ _ _ S A) as P'. pose proof (steps_clean _ _ _ S K) as K'.
  assert (A0 : after_ok p0) by (intros X; discriminate X). assert (K0 : clean p0) by (intros _; reflexivity).
  assert (X : rst p' = START_RECORD \/ rst p' <> START_RECORD) by (destruct (rst p'); (left; reflexivity) || (right; discriminate)). destruct X as [R|R].
  - rewrite R in E. destruct (read_lines f p0 ls) as [rs e] eqn:Er. cbn [fst snd] in E. injection E as <- ->. assert (C : ~ has_cr p').
    { intros [C|(x & I & C)]; [rewrite (K' (or_introl R)) in C; destruct C|]. apply (N (fields p') x); [left; reflexivity|exact I|exact C]. }
    rewrite (line_sim l l' p p' L S C), R, (IH p0 rs); [reflexivity|exact A0|exact K0|exact Er|]. intros row cell I. apply N. right. exact I.
  - assert (E' : read_lines f p' ls = (rows, None)) by (destruct (rst p'); congruence). assert (C : ~ has_cr p').
    { intros C. destruct (cr_comes_out ls p' rows A' K' P' (fun X => False_ind _ (R X)) C E') as (row & cell & I1 & I2 & I3). exact (N row cell I1 I2 I3). }
    rewrite (line_sim l l' p p' L S C). rewrite <- (IH p' rows A' K' E' N). destruct (rst p'); try reflexivity. contradiction R; reflexivity.
Qed.
Lemma csv_universal t rows : csv_read f t = (rows, None) -> no_cr rows -> csv_read_lines f (lines (universal t)) = (rows, None).
Proof. intros E N. unfold csv_read, csv_read_lines in *. apply (read_sim (lines t)); [apply lines_universal|intros X; discriminate X|intros _; reflexivity|exact E|exact N]. Qed.
End Parser.
(** *** Readers *)
Lemma iterdicts_reader {V} (sc : scalars V) expand lim d lang strict log cols file :
  iterdicts sc expand lim d lang strict log cols file = iter_reader sc expand d lang strict log cols (reader_with_line_number lim (Some d) kw0 file).
Proof. reflexivity. Qed.
Lemma one_char_in s c : one_char s = Ok c -> In c s.
Proof. destruct s as [|x [|y s]]; try discriminate. intros E. apply Ok_inj in E. subst. left. reflexivity. Qed.
Lemma dialect_fmt lim d k f : no_break_chars d -> effective_kw (Some d) kw0 = Ok k -> mk_fmt lim k = Ok f ->
  (delim f <> CR /\ delim f <> LF) /\ (forall q, quotechar f = Some q -> q <> CR /\ q <> LF) /\ (forall e, escapechar f = Some e -> e <> CR /\ e <> LF).
Proof.
  intros (N1 & N2 & N3) Ek Em. cbn [effective_kw] in Ek. apply bind_inv in Ek. destruct Ek as (b & Eb & Ek). apply Ok_inj in Ek. subst k. unfold as_python_formatting_parameters in Eb. destruct (d_lineTerminators d); [discriminate Eb|]. apply Ok_inj in Eb. subst b.
  unfold mk_fmt in Em. cbn [kw_update kw0 orelse getdef k_delimiter k_quotechar k_escapechar k_quoting] in Em. apply bind_inv in Em. destruct Em as (x & E1 & Em). apply bind_inv in Em. destruct Em as (q & E2 & Em). apply bind_inv in Em. destruct Em as (e & E3 & Em).
  assert (X : delim f = x /\ quotechar f = q /\ escapechar f = e) by (destruct q; apply Ok_inj in Em; subst f; auto). destruct X as (-> & -> & ->). clear Em. split; [|split].
  - apply one_char_in in E1. split; intros ->; contradiction.
  - intros c ->. destruct (d_quoteChar d) as [qs|]; cbn [opt_char] in E2; [|apply Ok_inj in E2; discriminate E2]. apply bind_inv in E2. destruct E2 as (y & E2 & E2'). apply Ok_inj in E2'. injection E2' as ->. apply one_char_in in E2. destruct N3. split; intros ->; contradiction.
  - intros c ->. destruct (negb (d_doubleQuote d)) eqn:Dq; cbn [opt_char] in E3; [|apply Ok_inj in E3; discriminate E3]. unfold escape_character in E3. destruct (d_quoteChar d); [|apply Ok_inj in E3; discriminate E3]. destruct (d_doubleQuote d); [discriminate Dq|]. apply Ok_inj in E3. injection E3 as <-. split; discriminate.
Qed.
Lemma strip_other t : (forall u, t <> BOM :: u) -> strip_bom t = t.
Proof. destruct t as [|c t]; [reflexivity|]. intros H. cbn [strip_bom]. destruct (c =? BOM) eqn:E; [|reflexivity]. apply N.eqb_eq in E. subst c. contradiction (H t eq_refl). Qed.
Lemma handle_same lim d file rows : no_break_chars d -> bom_fits d file -> reader_rows lim (Some d) kw0 file = Ok (rows, None) -> no_cr rows -> handle_rows lim d file = Ok (rows, None).
Proof.
  intros Nb [B1 B2] E N. unfold reader_rows in E. apply bind_inv in E. destruct E as (k & Ek & E). apply bind_inv in E. destruct E as (f & Ef & E). apply Ok_inj in E. destruct (dialect_fmt lim d k f Nb Ek Ef) as (F1 & F2 & F3).
  unfold handle_rows, open_handle. assert (X : str_eqb (d_encoding d) (lit "UTF-8-BOM") = false) by (apply str_eqb_neq; exact B1). rewrite X. cbn [bind]. unfold reader_rows_lines. rewrite Ek. cbn [bind]. rewrite Ef. cbn [bind]. f_equal. apply (csv_universal f F1 F2 F3); [|exact N]. rewrite <- E. f_equal.
  unfold reader_strips_bom. rewrite X, Bool.orb_false_r. destruct (str_eqb (d_encoding d) (lit "utf-8-sig")) eqn:Es; [rewrite Bool.orb_true_r; reflexivity|]. rewrite Bool.orb_false_r. destruct (str_eqb (d_encoding d) (lit "utf-8")) eqn:Eu; [|reflexivity]. apply str_eqb_eq in Eu. rewrite strip_other by (apply B2, Eu). reflexivity.
Qed.
Lemma iter_same {V} (sc : scalars V) expand lim d lang strict log (cols : list (tcol V)) file rows : no_break_chars d -> bom_fits d file -> reader_rows lim (Some d) kw0 file = Ok (rows, None) -> no_cr rows ->
  iter_reader sc expand d lang strict log cols (handle_with_line_number lim d file) = iterdicts sc expand lim d lang strict log cols file.
Proof. intros N B E C. rewrite iterdicts_reader. unfold handle_with_line_number, reader_with_line_number. rewrite (handle_same lim d file rows N B E C), E. reflexivity. Qed.
(** *** Files *)
Lemma zip_path_neq p : zip_path p <> p.
Proof. intros E. apply (f_equal (@length N)) in E. unfold zip_path in E. rewrite app_length in E. change (length (lit ".zip")) with 4%nat in E. lia. Qed.
Lemma startswith_refl (s : pystr) : startswith s s = true.
Proof. induction s as [|c s IH]; [reflexivity|]. cbn [startswith]. rewrite N.eqb_refl. exact IH. Qed.
Lemma endswith_refl (s : pystr) : endswith s s = true.
Proof. apply startswith_refl. Qed.
Lemma put_same fs p e : put fs p e p = e.
Proof. unfold put. rewrite str_eqb_refl. reflexivity. Qed.
Lemma put_other fs p e q : q <> p -> put fs p e q = fs q.
Proof. intros N. unfold put. apply str_eqb_neq in N. rewrite N. reflexivity. Qed.
Lemma read_states {V} (sc : scalars V) expand lim d lang strict log (cols : list (tcol V)) t rows fs p s : no_break_chars d -> bom_fits d t -> reader_rows lim (Some d) kw0 t = Ok (rows, None) -> no_cr rows ->
  In s (zip_states p t fs) -> iter_file sc expand lim d lang strict log cols s p = iterdicts sc expand lim d lang strict log cols t.
Proof.
  intros N B E C I. pose proof (zip_path_neq p) as Z. unfold iter_file, zip_states, written in *. destruct I as [<-|[<-|[<-|[<-|[]]]]].
  - rewrite put_same. reflexivity.
  - rewrite (put_other _ (zip_path p)), put_same by congruence. reflexivity.
  - rewrite (put_other _ (zip_path p)), put_same by congruence. reflexivity.
  - rewrite put_same, (put_other _ p _ (zip_path p)), put_same by exact Z. cbn [filter fst]. rewrite endswith_refl. cbn [snd]. eapply iter_same; eassumption.
Qed.
(** *** Written tables *)
Lemma sane_no_break d dl q term : sane_dialect d dl q term -> no_break_chars d.
Proof. intros [S1 S2 _ _ _ [N1 N2] [N3 N4] _ _]. unfold no_break_chars. rewrite S1, S2. cbn [In]. repeat split; intros [X|[]]; congruence. Qed.
Lemma written_bom pv lim d dl q term rows t : sane_dialect d dl q term -> d_doubleQuote d = true -> bom_safe d rows -> d_encoding d <> lit "UTF-8-BOM" ->
  write_file pv lim (Some d) kw0 rows = Ok t -> bom_fits d t.
Proof.
  intros H Hdq Hbom Henc Hw. split; [exact Henc|]. intros Eu u ->. set (f := dfmt lim d dl q term). assert (Hwf : wf_fmt f) by (apply sane_wf; [exact H|congruence]).
  assert (Hk := sane_kw d dl q term H). assert (Hf := sane_fmt lim d dl q term H). rewrite (write_file_spec pv lim (Some d) kw0 rows _ _ Hk Hf) in Hw. apply bind_inv in Hw. destruct Hw as (out & Eo & Hw). apply Ok_inj in Hw.
  assert (B1 : reader_strips_bom (Some d) = true) by (cbn [reader_strips_bom]; rewrite Eu; reflexivity). assert (B2 : writer_adds_bom (Some d) = false) by (cbn [writer_adds_bom]; rewrite Eu; reflexivity).
  assert (X : out = BOM :: u) by (unfold file_text in Hw; rewrite B2 in Hw; destruct out; congruence). destruct (wrows_hd pv f _ _ BOM Hwf Eo) as [(s & r & rs & E & Es)|[E|[E|[E|E]]]].
  - rewrite X. reflexivity.
  - destruct rows as [|[|c0 r0] rows0]; try discriminate. injection E as <- _ _. rewrite src_cell_dq in Es by exact Hdq. exact (no_bom_src _ _ _ _ (Hbom B1 B2) eq_refl Es).
  - cbn in E. rewrite Hdq in E. discriminate E.
  - cbn in E. injection E as E. apply (sd_bom _ _ _ _ H) in E. exact E.
  - cbn in E. symmetry in E. apply (sd_bom _ _ _ _ H) in E. exact E.
  - discriminate E.
Qed.
