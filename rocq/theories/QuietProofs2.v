(** Warnings of strict reading (with a log): cells without column. *)
From Verif Require Import PyStr PyCsv Dsv DsvProofs4 Json NatLang Column ColumnSpec ColumnProofs Schema Table TableSpec TableProofs TableProofs2 TableProofs3 QuietSpec QuietProofs.
From Coq Require Import Lia.
Section S.
Context {V : Type} (sc : scalars V) (expand : pystr -> dict V -> res pystr).
Notation hcs := (list (pystr * option (tcol V))).
Lemma strict_flag st text : snd (col_read sc true st text) = false.
Proof. unfold col_read. cbn zeta. destruct (_ && _); [reflexivity|]. destruct (st_separator st); [|reflexivity]. destruct (or_default st text); [reflexivity|]. destruct (str_mem _ _); [reflexivity|]. destruct (mapM _ _) as [?|[]]; reflexivity. Qed.
Definition strict_quiet (hc : hcs) (row : list pystr) : Prop :=
  forall i k oc v, nth_error hc i = Some (k, oc) -> nth_error row i = Some v -> exists c, oc = Some c /\ col_noise (tc_st c) v = false.
Lemma strict_quiet_cons k oc hc v row : strict_quiet ((k, oc) :: hc) (v :: row) <-> (exists c, oc = Some c /\ col_noise (tc_st c) v = false) /\ strict_quiet hc row.
Proof.
  split; [intros H; split; [exact (H 0%nat k oc v eq_refl eq_refl)|intros i; exact (H (S i))]|]. intros [H1 H2] [|i] k' oc' v' E1 E2; cbn in E1, E2; [injection E1 as <- <-; injection E2 as <-; exact H1|exact (H2 i k' oc' v' E1 E2)].
Qed.
Lemma read_cells_warns line (hc : hcs) : forall row j d, only_value_errors sc hc row ->
  (ro_warns (read_cells sc true true line j hc row d) = [] <-> strict_quiet hc row).
Proof.
  induction hc as [|[k oc] hc IH]; intros row j d H.
  - cbn [read_cells ro_warns]. split; [intros _ i k oc v E; destruct i; discriminate E|reflexivity].
  - destruct row as [|v row].
    { assert (E : forall oc, read_cells sc true true line j ((k, oc) :: hc) [] d = {| ro_dict := d; ro_msgs := []; ro_warns := []; ro_exn := None |}) by (intros [c|]; reflexivity). rewrite E. split; [intros _ i k' oc' v _ K; destruct i; discriminate K|reflexivity]. }
    pose proof (ove_tail _ _ _ _ _ H) as Ht. rewrite strict_quiet_cons.
    destruct oc as [c|]; cbn [read_cells].
    + assert (Step : forall ms d', ro_warns (ro_push ms ((if col_noise (tc_st c) v then [DatatypeWarning] else []) ++ []) (read_cells sc true true line (S j) hc row d')) = [] <-> (exists c', Some c = Some c' /\ col_noise (tc_st c') v = false) /\ strict_quiet hc row).
      { intros ms d'. cbn [ro_push ro_warns]. rewrite app_nil_r. split.
        - intros X. apply app_eq_nil in X. destruct X as [X1 X2]. split; [exists c; split; [reflexivity|destruct (col_noise _ _); [discriminate X1|reflexivity]]|apply (IH row (S j) d' Ht); exact X2].
        - intros ((c' & E & X1) & X2). injection E as <-. rewrite X1. apply (IH row (S j) d' Ht). exact X2. }
      rewrite strict_flag. destruct (fst (col_read sc true (tc_st c) v)) as [x|e] eqn:E; [apply Step|]. pose proof (ove_head _ _ _ _ _ _ _ H E) as ->. apply Step.
    + cbn [ro_push ro_warns app]. split; [discriminate|]. intros [(c & X & _) _]. discriminate X.
Qed.
Hypothesis Tot : forall u d, exists s, expand u d = Ok s.
Lemma iter_warns cols (hc : hcs) endr rows : hc <> [] -> (forall lr, In lr rows -> only_value_errors sc hc (snd lr)) ->
  (io_warns (iter_rows sc expand true true cols hc rows endr) = [] <-> forall line row, In (line, row) rows -> strict_quiet hc row).
Proof.
  intros Ne. induction rows as [|[line row] rows IH]; intros O; [split; [intros _ l r []|reflexivity]|].
  pose proof (O (line, row) (or_introl eq_refl)) as O1. cbn [snd] in O1. destruct (read_cells_log sc hc row line 0 [] O1) as (X & _). pose proof (read_cells_warns line hc row 0 [] O1) as W. cbn zeta in X.
  cbn [iter_rows]. rewrite (ensure_nonempty hc row Ne). unfold process_row. rewrite X. cbn [negb andb].
  destruct (add_virtual_total sc expand Tot (virtualcols cols) (setdefault_all (ro_dict (read_cells sc true true line 0 hc row [])) (colnames cols))) as (d' & ->). cbn [ro_exn io_cons io_warns ro_warns].
  assert (IH' := IH (fun lr H => O lr (or_intror H))). split.
  - intros H. apply app_eq_nil in H. destruct H as [H1 H2]. intros l r [E|Hin]; [injection E as <- <-; exact (proj1 W H1)|exact (proj1 IH' H2 l r Hin)].
  - intros H. rewrite (proj2 W (H line row (or_introl eq_refl))). apply IH'. intros l r Hin. exact (H l r (or_intror Hin)).
Qed.
Theorem strict_warnings_iff lim dl lang (cols : list (tcol V)) file rows endr hdr data :
  reader_with_line_number lim (Some dl) kw0 file = Ok (rows, endr) -> header_and_data dl cols rows hdr data -> hdr <> [] -> regular_first cols -> titles_readable cols ->
  (forall c, In c cols -> st_separator (tc_st c) <> Some []) ->
  exists hc, matched cols hdr hc /\
  (required_present cols hc -> (forall lr, In lr data -> only_value_errors sc hc (snd lr)) ->
   (io_warns (iterdicts sc expand lim dl lang true true cols file) = [] <->
    (forall line row j h, In (line, row) data -> (j < length row)%nat -> nth_error hdr j = Some h -> exists c, In c cols /\ refers c h) /\
    (forall line row j h c text, In (line, row) data -> nth_error hc j = Some (h, Some c) -> nth_error row j = Some text -> ~ cell_warned sc (tc_st c) text))).
Proof.
  intros HR HD Hn Hf Ht Se. destruct (header_cols_strict cols hdr Hf Ht) as (hc & E & M). exists hc. split; [exact M|]. intros RP OV.
  rewrite (iterdicts_data sc expand lim dl lang cols file rows endr hdr data true HR HD). unfold iter_data. rewrite E. rewrite (proj2 (missing_required_iff cols hc) RP). cbn [io_warns app].
  destruct M as (M1 & M2 & M3). assert (Hne : hc <> []) by (intros ->; apply Hn; rewrite <- M1; reflexivity).
  rewrite (iter_warns cols hc endr data Hne OV).
  assert (N1 : forall j h, nth_error hdr j = Some h <-> exists oc, nth_error hc j = Some (h, oc)).
  { intros j h. rewrite <- M1, nth_error_map. split; [destruct (nth_error hc j) as [[h' oc]|]; [intros H; injection H as ->; exists oc; reflexivity|discriminate]|intros (oc & ->); reflexivity]. }
  split.
  - intros H. split.
    + intros line row j h Hin Hj Hh. apply N1 in Hh. destruct Hh as (oc & Hc). destruct (nth_error row j) as [v|] eqn:Ev; [|apply nth_error_None in Ev; lia].
      destruct (H line row Hin j h oc v Hc Ev) as (c & -> & _). exists c. destruct (M2 h c (nth_error_In _ _ Hc)) as (A & B & _); auto.
    + intros line row j h c text Hin Hc Ev K. destruct (H line row Hin j h (Some c) text Hc Ev) as (c' & E' & Q). injection E' as <-. destruct (M2 h c (nth_error_In _ _ Hc)) as (A & _).
      apply noise_iff in K; [congruence|apply Se; exact A].
  - intros [H H'] line row Hin i k oc v Hc Ev. assert (L : (i < length row)%nat) by (apply nth_error_Some; congruence). destruct oc as [c|].
    + exists c. split; [reflexivity|]. apply not_true_iff_false. intros K. apply (H' line row i k c v Hin Hc Ev). destruct (M2 k c (nth_error_In _ _ Hc)) as (A & _). apply noise_iff; [apply Se; exact A|exact K].
    + exfalso. destruct (H line row i k Hin L (proj2 (N1 i k) (ex_intro _ None Hc))) as (c & A & B). exact (M3 k (nth_error_In _ _ Hc) c A B).
Qed.
End S.
