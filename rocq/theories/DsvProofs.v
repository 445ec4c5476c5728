(** Proofs about Dsv. *)
From Verif Require Import PyStr PyCsv PyCsvProofs PyCsvRound Dsv DsvSpec.

(** ** Reader: rows yielded, comments *)
Lemma count_char_app c a b : count_char c (a ++ b) = (count_char c a + count_char c b)%nat.
Proof. unfold count_char. rewrite filter_app, app_length; reflexivity. Qed.
Lemma row_newlines_spec r : row_newlines r = newlines_in r.
Proof.
  unfold newlines_in. change (row_newlines r = count_char LF (concat r)).
  induction r as [|s r IH]; [reflexivity|].
  cbn [row_newlines fold_right concat]. fold (row_newlines r). rewrite IH, count_char_app; reflexivity.
Qed.

Definition dropb (d : dialect) (lr : nat * list pystr) : bool :=
  is_comment_row d (snd lr) || (is_blank_row (snd lr) && d_skipBlankRows d)
  || Nat.ltb (fst lr) (d_skipRows d).
Definition recb (d : dialect) (lr : nat * list pystr) : bool :=
  is_comment_row d (snd lr)
  || (negb (match snd lr with [] => true | _ => false end) && Nat.ltb (fst lr) (d_skipRows d)).

Lemma is_comment_row_spec d r : is_comment_row d r = true <-> comment_row d r.
Proof.
  unfold is_comment_row, comment_row. destruct r as [|c cs].
  { split; [discriminate|]. intros (p & c & cs & _ & _ & E & _); discriminate. }
  destruct (d_commentPrefix d) as [[|p0 p]|].
  - split; [discriminate|]. intros (q & c' & cs' & E & Hn & _); injection E as <-; congruence.
  - rewrite startswith_spec. split.
    + intros [t Ht]. exists (p0 :: p), c, cs; repeat split; [discriminate|exists t; exact Ht].
    + intros (q & c' & cs' & E & Hn & Er & t & Ht). injection E as <-. injection Er as <- <-.
      exists t; exact Ht.
  - split; [discriminate|]. intros (q & c' & cs' & E & _); discriminate.
Qed.
Lemma is_blank_row_spec r : is_blank_row r = true <-> blank_row r.
Proof.
  unfold is_blank_row, blank_row; rewrite forallb_forall; split; intros H c Hc.
  - specialize (H c Hc); destruct c; [reflexivity|discriminate].
  - rewrite (H c Hc); reflexivity.
Qed.
Lemma dropb_spec d lr : dropb d lr = true <-> row_is_dropped d lr.
Proof.
  unfold dropb, row_is_dropped.
  rewrite !orb_true_iff, andb_true_iff, is_comment_row_spec, is_blank_row_spec, Nat.ltb_lt. tauto.
Qed.
Lemma recb_spec d lr : recb d lr = true <-> row_is_recorded d lr.
Proof.
  unfold recb, row_is_recorded.
  rewrite orb_true_iff, andb_true_iff, is_comment_row_spec, Nat.ltb_lt, negb_true_iff.
  destruct (snd lr); intuition congruence.
Qed.
Lemma recb_dropb d lr : recb d lr = true -> dropb d lr = true.
Proof.
  rewrite recb_spec, dropb_spec. unfold row_is_recorded, row_is_dropped. tauto.
Qed.

Lemma filter_Selected {A} (p : A -> bool) (P : A -> Prop) l :
  (forall x, p x = true <-> P x) -> Selected P l (filter p l).
Proof.
  intros H; induction l as [|x l IH]; cbn; [constructor|].
  destruct (p x) eqn:E; constructor; try assumption; rewrite <- H; congruence.
Qed.
Lemma Selected_filter {A} (p : A -> bool) (P : A -> Prop) l l' :
  (forall x, p x = true <-> P x) -> Selected P l l' -> l' = filter p l.
Proof.
  intros H; induction 1 as [|x l l' Hx _ IH|x l l' Hx _ IH]; cbn; [reflexivity| |].
  - apply H in Hx; rewrite Hx, IH; reflexivity.
  - destruct (p x) eqn:E; [exfalso; apply Hx, H, E|exact IH].
Qed.

Definition out_row (d : dialect) (lr : nat * list pystr) : nat * list pystr :=
  (fst lr, skipn (d_skipColumns d) (map (trimmer d) (snd lr))).

Lemma number_rows_length n rows : length (number_rows n rows) = length rows.
Proof. revert n; induction rows as [|r rs IH]; intros n; cbn; [reflexivity|]. rewrite IH; reflexivity. Qed.

(** one call of __next__ *)
Lemma dialect_next_spec d rows : forall n cs,
  let nr := number_rows n rows in
  match dialect_next d {| next_line := n; comments := cs |} rows with
  | (Some r, st', rest) =>
      exists pre x, nr = pre ++ x :: number_rows (next_line st') rest
        /\ filter (fun y => negb (dropb d y)) pre = [] /\ dropb d x = false
        /\ r = out_row d x
        /\ comments st' = cs ++ map (fun y => (fst y, comment_text d (snd y))) (filter (recb d) (pre ++ [x]))
        /\ (length rest < length rows)%nat
  | (None, st', rest) =>
      filter (fun y => negb (dropb d y)) nr = [] /\ rest = []
      /\ comments st' = cs ++ map (fun y => (fst y, comment_text d (snd y))) (filter (recb d) nr)
  end.
Proof.
  induction rows as [|row rest IH]; intros n cs; cbn [dialect_next next_line comments number_rows].
  - cbn. rewrite app_nil_r. repeat split.
  - rewrite row_newlines_spec.
    set (l := (n + newlines_in row)%nat).
    change (is_comment_row d row || is_blank_row row && d_skipBlankRows d || Nat.ltb l (d_skipRows d))
      with (dropb d (l, row)).
    change (is_comment_row d row || negb match row with [] => true | _ => false end && Nat.ltb l (d_skipRows d))
      with (recb d (l, row)).
    destruct (dropb d (l, row)) eqn:Ed.
    + specialize (IH (S l) (if recb d (l, row) then cs ++ [(l, comment_text d row)] else cs)).
      cbv zeta in IH.
      destruct (dialect_next d _ rest) as [[[r|] st'] rest'].
      * destruct IH as (pre & x & H1 & H2 & H3 & H4 & H5 & H6).
        exists ((l, row) :: pre), x. cbn [app filter]. rewrite H1, Ed, H2. cbn [negb].
        repeat split; try assumption.
        -- rewrite H5. destruct (recb d (l, row)); cbn [map app]; [rewrite <- app_assoc|]; reflexivity.
        -- cbn [length]; lia.
      * destruct IH as (H1 & H2 & H3). cbn [filter]. rewrite Ed. cbn [negb].
        repeat split; try assumption.
        rewrite H3. destruct (recb d (l, row)); cbn [map app]; [rewrite <- app_assoc|]; reflexivity.
    + exists [], (l, row). cbn [app filter next_line comments].
      assert (Er : recb d (l, row) = false).
      { destruct (recb d (l, row)) eqn:Er; [|reflexivity]. rewrite (recb_dropb _ _ Er) in Ed; discriminate. }
      rewrite Er. cbn [map]. rewrite app_nil_r. repeat split; try assumption. cbn; lia.
Qed.

(** the whole iteration *)
Lemma reader_loop_spec d : forall fuel rows n cs,
  (length rows < fuel)%nat ->
  let r := reader_loop (Some d) fuel {| next_line := n; comments := cs |} rows in
  fst r = map (out_row d) (filter (fun y => negb (dropb d y)) (number_rows n rows))
  /\ comments (snd r) = cs ++ map (fun y => (fst y, comment_text d (snd y))) (filter (recb d) (number_rows n rows)).
Proof.
  induction fuel as [|k IH]; intros rows n cs Hf; [lia|].
  cbn [reader_loop reader_next]. assert (H := dialect_next_spec d rows n cs). cbv zeta in H.
  destruct (dialect_next d {| next_line := n; comments := cs |} rows) as [[[r|] st'] rest].
  - destruct H as (pre & x & H1 & H2 & H3 & H4 & H5 & H6).
    destruct st' as [n' cs']. cbn [next_line comments] in *.
    specialize (IH rest n' cs' ltac:(lia)). cbv zeta in IH. destruct IH as [I1 I2].
    cbn [fst snd]. rewrite H1. rewrite filter_app, H2. cbn [filter app map]. rewrite H3. cbn [negb map].
    split.
    + rewrite I1, H4; reflexivity.
    + rewrite I2, H5. rewrite <- app_assoc. f_equal.
      rewrite !filter_app, !map_app. cbn [filter].
      assert (Er : recb d x = false).
      { destruct (recb d x) eqn:Er; [|reflexivity]. rewrite (recb_dropb _ _ Er) in H3; discriminate. }
      rewrite Er. cbn [map]. rewrite app_nil_r. reflexivity.
  - destruct H as (H1 & H2 & H3). cbn [fst snd]. rewrite H1. split; [reflexivity|exact H3].
Qed.

(** any number of calls of __next__ gives a prefix of the full iteration *)
Lemma reader_loop_prefix d : forall fuel rows n cs,
  fst (reader_loop (Some d) fuel {| next_line := n; comments := cs |} rows) =
  firstn fuel (map (out_row d) (filter (fun y => negb (dropb d y)) (number_rows n rows))).
Proof.
  induction fuel as [|k IH]; intros rows n cs; [reflexivity|].
  cbn [reader_loop reader_next]. assert (H := dialect_next_spec d rows n cs). cbv zeta in H.
  destruct (dialect_next d {| next_line := n; comments := cs |} rows) as [[[r|] st'] rest].
  - destruct H as (pre & x & H1 & H2 & H3 & H4 & H5 & H6). destruct st' as [n' cs'].
    cbn [next_line comments] in *. cbn [fst]. rewrite IH.
    rewrite H1, filter_app, H2. cbn [filter app]. rewrite H3. cbn [negb map firstn].
    rewrite H4; reflexivity.
  - destruct H as (H1 & H2 & H3). rewrite H1. reflexivity.
Qed.

Lemma plain_loop_spec : forall fuel rows n cs,
  (length rows < fuel)%nat ->
  fst (reader_loop None fuel {| next_line := n; comments := cs |} rows) = number_rows n rows.
Proof.
  induction fuel as [|k IH]; intros rows n cs Hf; [lia|].
  cbn [reader_loop reader_next]. destruct rows as [|row rest]; [reflexivity|].
  cbn [plain_next next_line comments fst]. rewrite IH by (cbn [length] in Hf; lia).
  rewrite row_newlines_spec. reflexivity.
Qed.
Lemma number_rows_snd n rows : map snd (number_rows n rows) = rows.
Proof. revert n; induction rows as [|r rs IH]; intros n; cbn; [reflexivity|]. rewrite IH; reflexivity. Qed.

Lemma reader_iter_plain rows : map snd (fst (reader_iter None rows)) = rows.
Proof.
  unfold reader_iter. change rd0 with {| next_line := 0; comments := [] |}.
  rewrite plain_loop_spec by lia. apply number_rows_snd.
Qed.

Theorem reader_dialect_iteration d rows kept recorded :
  Selected (fun lr => ~ row_is_dropped d lr) (number_rows 0 rows) kept ->
  Selected (row_is_recorded d) (number_rows 0 rows) recorded ->
  fst (reader_iter (Some d) rows) = map (fun lr => (fst lr, presented d (snd lr))) kept
  /\ comments (snd (reader_iter (Some d) rows)) =
     map (fun lr => (fst lr, comment_text d (snd lr))) recorded.
Proof.
  intros Hk Hr.
  assert (Hp : forall x, negb (dropb d x) = true <-> ~ row_is_dropped d x).
  { intros x. rewrite <- dropb_spec. destruct (dropb d x); cbn; intuition congruence. }
  apply (Selected_filter _ _ _ _ Hp) in Hk. apply (Selected_filter _ _ _ _ (recb_spec d)) in Hr.
  destruct (reader_loop_spec d (S (length rows)) rows 0 [] ltac:(lia)) as [H1 H2].
  unfold reader_iter. change rd0 with {| next_line := 0; comments := [] |}.
  rewrite H1, H2, Hk, Hr. split; reflexivity.
Qed.

Lemma lstrip_by_split p s : exists pre, s = pre ++ lstrip_by p s
  /\ (forall c, In c pre -> p c = true) /\ (forall c t, lstrip_by p s = c :: t -> p c = false).
Proof.
  induction s as [|x s (pre & E & H1 & H2)]; cbn [lstrip_by].
  - exists []. repeat split; [intros c []|discriminate].
  - destruct (p x) eqn:Ex.
    + exists (x :: pre). repeat split; [cbn; rewrite <- E; reflexivity| |exact H2].
      intros c [<-|Hc]; [exact Ex|apply H1, Hc].
    + exists []. repeat split; [intros c []|]. intros c t Et; injection Et as <- _; exact Ex.
Qed.
Lemma char_mem_In c p : char_mem c p = true <-> In c p.
Proof.
  unfold char_mem. rewrite existsb_exists. split.
  - intros (x & Hx & E). apply N.eqb_eq in E. subst x; exact Hx.
  - intros H; exists c; split; [exact H|apply N.eqb_refl].
Qed.
Lemma comment_text_spec d row : recorded_text d row (comment_text d row).
Proof.
  unfold recorded_text, comment_text, prefix_char. destruct (d_commentPrefix d) as [p|].
  - destruct (lstrip_by_split (fun c => char_mem c p) (join (d_delimiter d) row)) as (pre & E & H1 & H2).
    exists pre, (lstrip_by (fun c => char_mem c p) (join (d_delimiter d) row)). split; [exact E|].
    split; [intros c Hc; apply char_mem_In, H1, Hc|]. split; [|reflexivity].
    intros c t Et Hin. apply char_mem_In in Hin. rewrite (H2 c t Et) in Hin. discriminate.
  - destruct (lstrip_by_split is_space (join (d_delimiter d) row)) as (pre & E & H1 & H2).
    exists pre, (lstrip (join (d_delimiter d) row)). split; [exact E|]. split; [exact H1|]. split; [|reflexivity].
    intros c t Et. rewrite (H2 c t Et). discriminate.
Qed.
Theorem reader_dialect_comments d rows recorded :
  Selected (row_is_recorded d) (number_rows 0 rows) recorded ->
  Forall2 (fun lr c => fst c = fst lr /\ recorded_text d (snd lr) (snd c))
    recorded (comments (snd (reader_iter (Some d) rows))).
Proof.
  intros Hr.
  destruct (reader_dialect_iteration d rows (filter (fun x => negb (dropb d x)) (number_rows 0 rows)) recorded) as [_ H].
  - apply filter_Selected. intros x. rewrite <- dropb_spec. destruct (dropb d x); cbn; intuition congruence.
  - exact Hr.
  - rewrite H. clear. induction recorded as [|lr l IH]; cbn; constructor; [|exact IH].
    split; [reflexivity|apply comment_text_spec].
Qed.

Theorem reader_yields d rows kept recorded :
  Selected (fun lr => ~ row_is_dropped d lr) (number_rows 0 rows) kept ->
  Selected (row_is_recorded d) (number_rows 0 rows) recorded ->
  fst (reader_iter (Some d) rows) = map (fun lr => (fst lr, presented d (snd lr))) kept
  /\ Forall2 (fun lr c => fst c = fst lr /\ recorded_text d (snd lr) (snd c))
       recorded (comments (snd (reader_iter (Some d) rows))).
Proof.
  intros H1 H2. split; [apply (reader_dialect_iteration d rows kept recorded H1 H2)|].
  apply reader_dialect_comments, H2.
Qed.

Theorem reader_dialect_calls d rows kept calls :
  Selected (fun lr => ~ row_is_dropped d lr) (number_rows 0 rows) kept ->
  fst (reader_loop (Some d) calls rd0 rows) =
  firstn calls (map (fun lr => (fst lr, presented d (snd lr))) kept).
Proof.
  intros Hk.
  assert (Hp : forall x, negb (dropb d x) = true <-> ~ row_is_dropped d x).
  { intros x. rewrite <- dropb_spec. destruct (dropb d x); cbn; intuition congruence. }
  apply (Selected_filter _ _ _ _ Hp) in Hk. change rd0 with {| next_line := 0; comments := [] |}.
  rewrite reader_loop_prefix, Hk. reflexivity.
Qed.

Lemma keeps_everything_drop d lr : keeps_everything d -> ~ row_is_dropped d lr.
Proof.
  intros (H1 & H2 & H3 & _) [(p & c & cs & E & _)|[[_ E]|E]]; rewrite ?H3 in E; try congruence. lia.
Qed.
Lemma reader_iter_keeps d rows : keeps_everything d -> map snd (fst (reader_iter (Some d) rows)) = rows.
Proof.
  intros Hk.
  assert (Hsel : Selected (fun lr => ~ row_is_dropped d lr) (number_rows 0 rows) (number_rows 0 rows)).
  { generalize (number_rows 0 rows) as l. induction l as [|x l IH]; constructor; auto.
    apply keeps_everything_drop, Hk. }
  destruct (reader_dialect_iteration d rows _ _ Hsel (filter_Selected (recb d) _ _ (recb_spec d))) as [H _].
  rewrite H, map_map. cbn [snd]. destruct Hk as (_ & _ & _ & H4 & H5).
  rewrite <- (number_rows_snd 0 rows) at 2. apply map_ext. intros [l r]. unfold presented.
  rewrite H4, H5. cbn [skipn snd]. unfold trimmed. apply map_id.
Qed.

(** ** Writer *)
Definition src_cell (k : csv_kw) (c : cell) : pystr := cell_str (escapedoubled k c).

Lemma writerows_list pv w rows i :
  match wrows pv (w_fmt w) (map (map (src_cell (w_kw w))) rows) with
  | Ok t => writerows_from pv i w (map RList rows) =
            ({| w_kw := w_kw w; w_fmt := w_fmt w; w_out := w_out w ++ t; w_rows := w_rows w + length rows |}, None)
  | Err e => snd (writerows_from pv i w (map RList rows)) = Some e
  end.
Proof.
  revert w i; induction rows as [|r rows IH]; intros w i.
  - cbn. rewrite app_nil_r, Nat.add_0_r. destruct w; reflexivity.
  - cbn [map wrows writerows_from]. unfold writerow. unfold src_cell at 1.
    destruct (wrow pv (w_fmt w) (map (fun x => cell_str (escapedoubled (w_kw w) x)) r)) as [a|e];
      cbn [bind]; [|reflexivity].
    specialize (IH {| w_kw := w_kw w; w_fmt := w_fmt w; w_out := w_out w ++ a; w_rows := S (w_rows w) |} (S i)).
    cbn [w_fmt w_kw w_out w_rows] in IH.
    destruct (wrows pv (w_fmt w) (map (map (src_cell (w_kw w))) rows)) as [b|e]; cbn [bind].
    + rewrite IH, <- app_assoc. cbn [length]. do 2 f_equal. lia.
    + exact IH.
Qed.

Lemma write_file_spec pv lim d kw rows k f :
  effective_kw d kw = Ok k -> mk_fmt lim k = Ok f ->
  write_file pv lim d kw rows =
  (t <- wrows pv f (map (map (src_cell k)) rows) ;; Ok (file_text d t)).
Proof.
  intros Hk Hf. unfold write_file, writer_open. rewrite Hk; cbn [bind]. rewrite Hf; cbn [bind].
  set (w := {| w_kw := k; w_fmt := f; w_out := []; w_rows := 0 |}).
  assert (H := writerows_list pv w rows 0). cbn [w_fmt w_kw w] in H.
  unfold writerows. destruct (wrows pv f (map (map (src_cell k)) rows)) as [t|e]; cbn [bind].
  - rewrite H. reflexivity.
  - destruct (writerows_from pv 0 w (map RList rows)) as [w' o]; cbn in H; subst o; reflexivity.
Qed.

(** first character of what is written *)
Lemma wbody_hd pv f s t b c : wbody pv f s = Ok (t, b) -> hd_or t None = Some c ->
  hd_or s None = Some c \/ escapechar f = Some c.
Proof.
  destruct s as [|x s]; cbn [wbody]; intros H Hc; [injection H as <- <-; discriminate|].
  destruct (wchar pv f x) as [[t1 b1]|] eqn:E1; cbn [bind] in H; [|discriminate].
  destruct (wbody pv f s) as [[t2 b2]|]; cbn [bind fst snd] in H; [|discriminate].
  injection H as <- <-.
  unfold wchar in E1.
  assert (Hx : forall l, t1 = x :: l -> hd_or (x :: s) None = Some c).
  { intros l ->. cbn in Hc |- *. exact Hc. }
  destruct (special pv f x).
  - assert (Hesc : match escapechar f with Some e => Ok ([e; x], false) | None => Err CsvError end = Ok (t1, b1) ->
             escapechar f = Some c).
    { intros E; destruct (escapechar f) as [e|]; [|discriminate]. injection E as <- <-. exact Hc. }
    destruct (quotemode f); [| |right; apply Hesc, E1];
      (destruct (is_oc (quotechar f) x);
       [destruct (doublequote f); [injection E1 as <- <-; left; eapply Hx; reflexivity|right; apply Hesc, E1]
       |destruct (_ && _) in E1; [right; apply Hesc, E1|injection E1 as <- <-; left; eapply Hx; reflexivity]]).
  - injection E1 as <- <-; left; eapply Hx; reflexivity.
Qed.

Lemma wfield_hd pv f forced s t c : wfield pv f forced s = Ok t -> hd_or t None = Some c ->
  hd_or s None = Some c \/ escapechar f = Some c \/ quotechar f = Some c.
Proof.
  unfold wfield. destruct (wbody pv f s) as [[bt b]|] eqn:Eb; cbn [bind fst snd]; [|discriminate].
  intros H Hc.
  assert (Hw : wrap_quotes f bt = t -> hd_or s None = Some c \/ escapechar f = Some c \/ quotechar f = Some c).
  { unfold wrap_quotes. destruct (quotechar f) as [q|] eqn:Eq; intros <-.
    - cbn in Hc. right; right; exact Hc.
    - destruct (wbody_hd _ _ _ _ _ _ Eb Hc); tauto. }
  assert (Hn : bt = t -> hd_or s None = Some c \/ escapechar f = Some c \/ quotechar f = Some c).
  { intros <-. destruct (wbody_hd _ _ _ _ _ _ Eb Hc); tauto. }
  destruct (quotemode f).
  - destruct (_ || _) in H; injection H as H; auto.
  - injection H as H; auto.
  - destruct (_ && _) in H; [discriminate|]. injection H as H; auto.
Qed.

Lemma wrows_hd pv f rows t c : wf_fmt f -> wrows pv f rows = Ok t -> hd_or t None = Some c ->
  (exists s row rest, rows = (s :: row) :: rest /\ hd_or s None = Some c)
  \/ escapechar f = Some c \/ quotechar f = Some c \/ c = delim f \/ is_nl c = true.
Proof.
  intros Hwf H Hc. destruct rows as [|r rows]; cbn [wrows] in H; [injection H as <-; discriminate|].
  destruct (wrow pv f r) as [a|] eqn:Ea; cbn [bind] in H; [|discriminate].
  destruct (wrows pv f rows) as [b|]; cbn [bind] in H; [|discriminate]. injection H as <-.
  assert (Hlt : forall x, hd_or (lineterm f ++ x) None = Some c -> is_nl c = true).
  { intros x Hx. destruct (wf_lt f Hwf) as [E|[E|E]]; rewrite E in Hx; cbn in Hx; injection Hx as <-; reflexivity. }
  unfold wrow in Ea.
  destruct (mapM (wfield pv f false) r) as [parts|] eqn:Em; cbn [bind] in Ea; [|discriminate].
  destruct r as [|s r].
  { injection Em as <-. cbn in Ea. injection Ea as <-. right; right; right; right. eapply Hlt, Hc. }
  cbn [mapM] in Em. destruct (wfield pv f false s) as [p|] eqn:Ep; cbn [bind] in Em; [|discriminate].
  destruct (mapM (wfield pv f false) r) as [ps|] eqn:Eps; cbn [bind] in Em; [|discriminate].
  injection Em as <-.
  destruct (wjoin (delim f) (p :: ps)) as [|w ws] eqn:Ew.
  - assert (Hq : exists t0, wfield pv f true [] = Ok t0 /\ a = t0 ++ lineterm f).
    { destruct (quotemode f); [| |discriminate];
        (destruct (wfield pv f true []) as [t0|]; cbn [bind] in Ea; [|discriminate]; injection Ea as <-; eauto). }
    destruct Hq as (t0 & Et0 & ->). rewrite <- app_assoc in Hc.
    destruct t0 as [|x t0]; [right; right; right; right; eapply Hlt; exact Hc|].
    cbn [app hd_or] in Hc. destruct (wfield_hd _ _ _ _ _ c Et0 Hc) as [E|[E|E]]; [discriminate|auto|auto].
  - injection Ea as <-.
    assert (Hcw : c = w) by (cbn in Hc; congruence). subst w.
    destruct p as [|x p].
    + destruct ps as [|p2 ps]; [discriminate|]. cbn in Ew. injection Ew as <- _. auto.
    + assert (Hcx : x = c) by (destruct ps; cbn in Ew; congruence). subst x.
      destruct (wfield_hd _ _ _ _ _ c Ep eq_refl) as [E|[E|E]]; auto.
      left. exists s, r, rows; split; [reflexivity|exact E].
Qed.

Lemma strip_bom_id t : hd_or t None <> Some BOM -> strip_bom t = t.
Proof.
  destruct t as [|c t]; cbn; [reflexivity|]. intros H.
  destruct (N.eqb_spec c BOM) as [->|]; [congruence|reflexivity].
Qed.

Lemma reader_of_file d out :
  (reader_strips_bom d = true -> writer_adds_bom d = false -> hd_or out None <> Some BOM) ->
  (if reader_strips_bom d then strip_bom (file_text d out) else file_text d out) = out.
Proof.
  intros H. unfold file_text. destruct out as [|c out].
  { destruct (reader_strips_bom d); reflexivity. }
  destruct (reader_strips_bom d) eqn:Er, (writer_adds_bom d) eqn:Ew.
  - cbn. reflexivity.
  - apply strip_bom_id, H; reflexivity.
  - exfalso. destruct d as [dd|]; cbn in *; [|discriminate].
    apply orb_false_iff in Er; destruct Er as [Er1 Er2]. apply orb_false_iff in Er1; destruct Er1 as [_ Er1].
    rewrite Er1, Er2 in Ew; discriminate.
  - reflexivity.
Qed.

(** ** Round trips *)
Definition mapcells {A B} (g : A -> B) (rows : list (list A)) : list (list B) := map (map g) rows.

Lemma Forall2_mapcells {A B C} (R : B -> C -> Prop) (g : A -> B) (h : A -> C) (rows : list (list A)) :
  (forall row c, In row rows -> In c row -> R (g c) (h c)) ->
  Forall2 (Forall2 R) (mapcells g rows) (mapcells h rows).
Proof.
  intros H; induction rows as [|r rows IH]; cbn; constructor.
  - assert (Hr : forall c, In c r -> R (g c) (h c)) by (intros c; apply H; left; reflexivity).
    clear -Hr. induction r as [|c r IH]; cbn; constructor; [apply Hr; left; reflexivity|].
    apply IH. intros x Hx; apply Hr; right; exact Hx.
  - apply IH. intros row c Hrow. apply H; right; exact Hrow.
Qed.

Lemma cells_within_Forall n rows :
  cells_within n rows <-> Forall (Forall (fun s : pystr => N.of_nat (length s) <= n)) rows.
Proof.
  unfold cells_within; split.
  - intros H; apply Forall_forall; intros row Hr; apply Forall_forall; intros s Hs; eapply H; eassumption.
  - intros H row s Hr Hs. rewrite Forall_forall in H. specialize (H row Hr).
    rewrite Forall_forall in H. apply H, Hs.
Qed.

(** general form: [h] says how a cell comes back *)
Theorem roundtrip_gen pv lim d kw k f rows h t :
  effective_kw d kw = Ok k -> mk_fmt lim k = Ok f ->
  wf_fmt f -> seps_not_space f -> limit f = lim ->
  (forall row c, In row rows -> In c row -> cell_reads pv f (src_cell k c) (h c)) ->
  cells_within lim (mapcells h rows) ->
  (reader_strips_bom d = true -> writer_adds_bom d = false ->
     (forall s r rs, rows = (s :: r) :: rs -> hd_or (src_cell k s) None <> Some BOM)
     /\ delim f <> BOM /\ quotechar f <> Some BOM /\ escapechar f <> Some BOM) ->
  write_file pv lim d kw rows = Ok t ->
  reader_rows lim d kw t = Ok (mapcells h rows, None).
Proof.
  intros Hk Hf Hwf Hsep Hlim Hcells Hlen Hbom Hw.
  rewrite (write_file_spec pv lim d kw rows k f Hk Hf) in Hw.
  destruct (wrows pv f (map (map (src_cell k)) rows)) as [out|] eqn:Eo; cbn [bind] in Hw; [|discriminate].
  injection Hw as <-.
  unfold reader_rows. rewrite Hk; cbn [bind]. rewrite Hf; cbn [bind].
  rewrite reader_of_file.
  - f_equal. apply (wrows_read pv f (mapcells (src_cell k) rows)); auto.
    + apply Forall2_mapcells, Hcells.
    + apply cells_within_Forall. rewrite Hlim. exact Hlen.
  - intros H1 H2 H3. destruct (Hbom H1 H2) as (B1 & B2 & B3 & B4).
    destruct (wrows_hd pv f _ _ BOM Hwf Eo H3) as [(s & r & rs & E & Es)|[E|[E|[E|E]]]]; try congruence.
    + destruct rows as [|[|c0 r0] rows0]; try discriminate.
      injection E as <- _ _. eapply B1; [reflexivity|exact Es].
    + discriminate.
Qed.

(** *** C01: default settings *)
Definition default_fmt (lim : N) : fmt :=
  {| delim := 44; quotechar := Some 34; escapechar := None; doublequote := true;
     skipinitialspace := false; lineterm := [CR; LF]; quotemode := QMinimal; strict := false; limit := lim |}.

Lemma default_fmt_ok lim : mk_fmt lim kw0 = Ok (default_fmt lim).
Proof. reflexivity. Qed.
Lemma default_fmt_wf lim : wf_fmt (default_fmt lim).
Proof.
  constructor; cbn; try discriminate; try reflexivity; intros; try congruence;
    try (match goal with H : Some _ = Some _ |- _ => injection H as <- end; try reflexivity; try discriminate).
  left; reflexivity.
Qed.

Lemma src_cell_kw0 c : src_cell kw0 c = cell_text c.
Proof. destruct c; reflexivity. Qed.

Lemma no_bom_src rows s r rs :
  no_leading_bom (texts rows) -> rows = (s :: r) :: rs -> hd_or (cell_text s) None <> Some BOM.
Proof.
  intros H ->. cbn in H. destruct (cell_text s); cbn; congruence.
Qed.

Theorem default_roundtrip pv lim rows :
  cells_within lim (texts rows) -> no_leading_bom (texts rows) ->
  exists t, write_file pv lim None kw0 rows = Ok t
            /\ unicode_reader lim None kw0 t = Ok (texts rows, None).
Proof.
  intros Hlen Hbom.
  assert (Hw : exists t, write_file pv lim None kw0 rows = Ok t).
  { rewrite (write_file_spec pv lim None kw0 rows kw0 (default_fmt lim) eq_refl (default_fmt_ok lim)).
    destruct (wrows_total pv (default_fmt lim) (map (map (src_cell kw0)) rows)) as [t Ht].
    - discriminate.
    - intros forced s. apply wfield_total; [discriminate|reflexivity|reflexivity].
    - rewrite Ht. eexists; reflexivity. }
  destruct Hw as [t Ht]. exists t; split; [exact Ht|].
  assert (Hr : reader_rows lim None kw0 t = Ok (mapcells cell_text rows, None)).
  { eapply (roundtrip_gen pv lim None kw0 kw0 (default_fmt lim) rows cell_text t eq_refl (default_fmt_ok lim)
             (default_fmt_wf lim)); auto.
    - intros E; discriminate E.
    - intros row c _ _. rewrite src_cell_kw0.
      assert (H : cell_reads pv (default_fmt lim) (cell_text c)
                   (back (default_fmt lim) (wflag pv (default_fmt lim) (cell_text c)) (cell_text c))).
      { apply cell_reads_direct.
        - apply default_fmt_wf.
        - right; reflexivity.
        - intros E; discriminate E.
        - right; right. intros e E; discriminate E. }
      unfold back in H. cbn [skipinitialspace default_fmt andb] in H. exact H.
    - intros _ _. split; [|repeat split; discriminate].
      intros s r rs E. rewrite src_cell_kw0. eapply no_bom_src; eassumption. }
  unfold unicode_reader. rewrite Hr. cbn [bind fst snd]. rewrite reader_iter_plain. reflexivity.
Qed.
