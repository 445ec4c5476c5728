(** Proofs about reading tables: C28, C30. *)
From Verif Require Import PyStr PyCsv Dsv DsvSpec DsvProofs4 Column ColumnProofs2 Schema Table TableSpec.
From Coq Require Import Lia.

Section P.
Context {V : Type} (sc : scalars V) (expand : pystr -> dict V -> res pystr).
Implicit Types (c : tcol V) (d : dict V).
Notation hcs := (list (pystr * option (tcol V))).

Lemma dget_dset_s {A} (d : list (pystr * A)) k v k' :
  dget str_eqb (dset str_eqb d k v) k' = if str_eqb k' k then Some v else dget str_eqb d k'.
Proof. apply dget_dset. exact str_eqb_eq. Qed.
Lemma dget_dset_same {A} (d : list (pystr * A)) k v : dget str_eqb (dset str_eqb d k v) k = Some v.
Proof. rewrite dget_dset_s, (proj2 (str_eqb_eq k k) eq_refl). reflexivity. Qed.
Lemma dget_dset_other {A} (d : list (pystr * A)) k v k' : k' <> k -> dget str_eqb (dset str_eqb d k v) k' = dget str_eqb d k'.
Proof. intros H. rewrite dget_dset_s. destruct (str_eqb k' k) eqn:E; [|reflexivity]. apply str_eqb_eq in E. contradiction. Qed.

(** ** the cells of a row, in strict mode *)
Fixpoint cells_msgs (line j : nat) (hc : hcs) (row : list pystr) : list lmsg :=
  match hc, row with
  | (k, Some c) :: hc', v :: row' =>
      match fst (col_read sc true (tc_st c) v) with
      | Ok _ => cells_msgs line (S j) hc' row'
      | Err _ => BadCell line (S j) k :: cells_msgs line (S j) hc' row'
      end
  | (k, None) :: hc', v :: row' => cells_msgs line (S j) hc' row'
  | _, _ => []
  end.
Fixpoint cells_dict (ps : list (pystr * option (tcol V) * pystr)) d : dict V :=
  match ps with
  | [] => d
  | ((k, Some c), v) :: ps' =>
      match fst (col_read sc true (tc_st c) v) with
      | Ok x => cells_dict ps' (dset str_eqb d (tc_header c) x)
      | Err _ => cells_dict ps' d
      end
  | ((k, None), v) :: ps' => cells_dict ps' (dset str_eqb d k (POne (s_str sc v)))
  end.
Lemma ove_tail e hc v row : only_value_errors sc (e :: hc) (v :: row) -> only_value_errors sc hc row.
Proof. intros H j k c v0 e0 H1 H2 H3. exact (H (S j) k c v0 e0 H1 H2 H3). Qed.
Lemma ove_head k c hc v row e : only_value_errors sc ((k, Some c) :: hc) (v :: row) ->
  fst (col_read sc true (tc_st c) v) = Err e -> e = ValueError.
Proof. intros H H1. exact (H 0%nat k c v e eq_refl eq_refl H1). Qed.

Lemma read_cells_log hc : forall row line j d, only_value_errors sc hc row ->
  let o := read_cells sc true true line j hc row d in
  ro_exn o = None /\ ro_msgs o = cells_msgs line j hc row /\ ro_dict o = cells_dict (combine hc row) d.
Proof.
  induction hc as [|[k oc] hc IH]; intros row line j d H; cbn zeta.
  - cbn. auto.
  - destruct row as [|v row]; [destruct oc; cbn; auto|].
    pose proof (IH row line (S j)) as IH'. pose proof (ove_tail _ _ _ _ H) as Ht.
    destruct oc as [c|]; cbn [read_cells cells_msgs combine cells_dict].
    + destruct (fst (col_read sc true (tc_st c) v)) as [x|e] eqn:E.
      * destruct (IH' (dset str_eqb d (tc_header c) x) Ht) as (A & B & C). cbn. auto.
      * pose proof (ove_head _ _ _ _ _ _ H E) as ->. destruct (IH' d Ht) as (A & B & C). cbn. rewrite B. auto.
    + destruct (IH' (dset str_eqb d k (POne (s_str sc v))) Ht) as (A & B & C). cbn. auto.
Qed.
Lemma read_cells_nolog hc : forall row line j d, only_value_errors sc hc row ->
  let o := read_cells sc true false line j hc row d in
  ro_msgs o = [] /\
  match cells_msgs line j hc row with
  | [] => ro_exn o = None /\ ro_dict o = cells_dict (combine hc row) d
  | _ => ro_exn o = Some ValueError
  end.
Proof.
  induction hc as [|[k oc] hc IH]; intros row line j d H; cbn zeta.
  - cbn. auto.
  - destruct row as [|v row]; [destruct oc; cbn; auto|].
    pose proof (IH row line (S j)) as IH'. pose proof (ove_tail _ _ _ _ H) as Ht.
    destruct oc as [c|]; cbn [read_cells cells_msgs combine cells_dict].
    + destruct (fst (col_read sc true (tc_st c) v)) as [x|e] eqn:E.
      * destruct (IH' (dset str_eqb d (tc_header c) x) Ht) as (A & B). cbn. auto.
      * pose proof (ove_head _ _ _ _ _ _ H E) as ->. cbn. auto.
    + destruct (IH' (dset str_eqb d k (POne (s_str sc v))) Ht) as (A & B). cbn. auto.
Qed.

(** ** a whole row *)
Definition total_expand := forall u d, exists s, expand u d = Ok s.
Lemma add_virtual_total : total_expand -> forall vs d, exists d', add_virtual sc expand d vs = Ok d'.
Proof.
  intros Hx. induction vs as [|[k u] vs IH]; intros d; cbn; [eauto|].
  destruct (Hx u d) as [s ->]. apply IH.
Qed.
Definition row_msgs (line : nat) (hc : hcs) (row : list pystr) : list lmsg :=
  cells_msgs line 0 hc row ++ missing_cells line hc row (cells_dict (combine hc row) []).
Definition row_final (cols : list (tcol V)) (hc : hcs) (row : list pystr) : res (dict V) :=
  add_virtual sc expand (setdefault_all (cells_dict (combine hc row) []) (colnames cols)) (virtualcols cols).

Lemma process_log cols line hc row dd : only_value_errors sc hc row -> row_final cols hc row = Ok dd ->
  let o := process_row sc expand true true cols line hc row in
  ro_exn o = None /\ ro_msgs o = row_msgs line hc row /\ ro_dict o = dd.
Proof.
  intros H Hf. destruct (read_cells_log hc row line 0 [] H) as (A & B & C).
  unfold process_row. rewrite A. cbn [negb andb]. rewrite C, B. unfold row_final in Hf. rewrite Hf. cbn. auto.
Qed.
Lemma process_nolog cols line hc row dd : only_value_errors sc hc row -> row_final cols hc row = Ok dd ->
  let o := process_row sc expand true false cols line hc row in
  ro_msgs o = [] /\
  match row_msgs line hc row with
  | [] => ro_exn o = None /\ ro_dict o = dd
  | _ => ro_exn o = Some ValueError
  end.
Proof.
  intros H Hf. destruct (read_cells_nolog hc row line 0 [] H) as (A & B).
  unfold process_row, row_msgs. destruct (cells_msgs line 0 hc row) as [|m ms] eqn:E.
  - destruct B as [B1 B2]. rewrite B1. rewrite B2, A. cbn [app negb andb].
    destruct (missing_cells line hc row (cells_dict (combine hc row) [])) as [|m ms]; cbn.
    + unfold row_final in Hf. rewrite Hf. cbn. auto.
    + auto.
  - rewrite B. cbn. split; [exact A|exact B].
Qed.

(** ** all rows; [hc <> []] *)
Lemma ensure_nonempty (hc : hcs) row : hc <> [] -> ensure_cols hc row = hc.
Proof. destruct hc; [congruence|reflexivity]. Qed.
Definition yields cols hc (lr : nat * list pystr) : list (nat * dict V) :=
  match row_msgs (fst lr) hc (snd lr), row_final cols hc (snd lr) with
  | [], Ok d => [(fst lr, d)]
  | _, _ => []
  end.
Lemma iter_log cols hc endr rows : hc <> [] -> total_expand ->
  (forall lr, In lr rows -> only_value_errors sc hc (snd lr)) ->
  let o := iter_rows sc expand true true cols hc rows endr in
  io_end o = endr /\ io_rows o = flat_map (yields cols hc) rows
  /\ io_msgs o = flat_map (fun lr => row_msgs (fst lr) hc (snd lr)) rows.
Proof.
  intros Hn Hx. induction rows as [|[line row] rows IH]; intros H; cbn zeta.
  - cbn. auto.
  - cbn [iter_rows]. rewrite (ensure_nonempty hc row Hn).
    destruct (add_virtual_total Hx (virtualcols cols) (setdefault_all (cells_dict (combine hc row) []) (colnames cols))) as [dd Hd].
    destruct (process_log cols line hc row dd (H (line, row) (or_introl eq_refl)) Hd) as (A & B & C).
    rewrite A. destruct IH as (I1 & I2 & I3); [intros lr Hlr; apply H; right; exact Hlr|].
    cbn [io_end io_rows io_msgs io_cons flat_map]. split; [exact I1|]. unfold yields at 1. cbn [fst snd].
    rewrite B, C, I2, I3. unfold row_final. rewrite Hd. destruct (row_msgs line hc row); split; reflexivity.
Qed.
Lemma iter_nolog cols hc endr rows : hc <> [] -> total_expand ->
  (forall lr, In lr rows -> only_value_errors sc hc (snd lr)) ->
  let o := iter_rows sc expand true false cols hc rows endr in
  io_msgs o = [] /\
  ((forall lr, In lr rows -> row_msgs (fst lr) hc (snd lr) = []) -> io_end o = endr /\ io_rows o = flat_map (yields cols hc) rows)
  /\ (forall pre bad post, rows = pre ++ bad :: post -> (forall lr, In lr pre -> row_msgs (fst lr) hc (snd lr) = []) ->
      row_msgs (fst bad) hc (snd bad) <> [] -> io_end o = Some ValueError /\ io_rows o = flat_map (yields cols hc) pre).
Proof.
  intros Hn Hx. induction rows as [|[line row] rows IH]; intros H; cbn zeta.
  - cbn. split; [reflexivity|]. split; [auto|]. intros [|p pre]; discriminate.
  - cbn [iter_rows]. rewrite (ensure_nonempty hc row Hn).
    destruct (add_virtual_total Hx (virtualcols cols) (setdefault_all (cells_dict (combine hc row) []) (colnames cols))) as [dd Hd].
    destruct (process_nolog cols line hc row dd (H (line, row) (or_introl eq_refl)) Hd) as (A & B).
    destruct IH as (I1 & I2 & I3); [intros lr Hlr; apply H; right; exact Hlr|].
    destruct (row_msgs line hc row) as [|m ms] eqn:Em.
    + destruct B as [B1 B2]. rewrite B1. cbn [io_end io_rows io_msgs io_cons].
      rewrite A. cbn [app]. split; [exact I1|].
      assert (Ey : yields cols hc (line, row) = [(line, dd)]) by (unfold yields, row_final; cbn [fst snd]; rewrite Em, Hd; reflexivity).
      split.
      * intros Hg. destruct I2 as [E1 E2]; [intros lr Hlr; apply Hg; right; exact Hlr|]. split; [exact E1|].
        rewrite E2, B2. cbn [flat_map]. rewrite Ey. reflexivity.
      * intros [|p pre] bad post E Hpre Hbad; cbn in E; injection E as E1 E2.
        { subst bad. cbn in Hbad. congruence. }
        subst p. destruct (I3 pre bad post E2) as [J1 J2]; [intros lr Hlr; apply Hpre; right; exact Hlr|exact Hbad|].
        split; [exact J1|]. rewrite J2, B2. cbn [flat_map]. rewrite Ey. reflexivity.
    + rewrite B. cbn. split; [exact A|]. split.
      * intros Hg. specialize (Hg (line, row) (or_introl eq_refl)). cbn in Hg. congruence.
      * intros [|p pre] bad post E Hpre Hbad; cbn in E; injection E as E1 E2.
        { auto. }
        subst p. specialize (Hpre (line, row) (or_introl eq_refl)). cbn in Hpre. congruence.
Qed.
End P.
