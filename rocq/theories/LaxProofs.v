(** Lenient reading: cells and rows. *)
From Verif Require Import PyStr PyCsv Dsv DsvSpec DsvProofs4 Json Dec NatLang Column ColumnSpec ColumnProofs Schema Table TableSpec TableProofs TableProofs2 TableProofs3 QuietSpec QuietProofs JsonldProofs FrameProofs LaxSpec.
From Coq Require Import Lia.

Section Cells.
Context {V : Type} (sc : scalars V) (expand : pystr -> dict V -> res pystr).
Notation hcs := (list (pystr * option (tcol V))).
(** *** one cell *)
Lemma lax_err st text e : fst (col_read sc false st text) = Err e -> fst (col_read sc true st text) = Err e.
Proof.
  unfold col_read. cbn zeta. destruct (_ && _); [cbn; congruence|]. destruct (st_separator st) as [sep|]; cbn [fst]; [|congruence].
  destruct (or_default st text) as [|y t]; [cbn; congruence|]. destruct (str_mem _ _); [cbn; congruence|]. destruct (mapM _ _) as [l|[]]; cbn [fst]; congruence.
Qed.
Lemma parts_kept st parts : exists parts', Forall2 (with_default st) parts parts' /\ Forall2 (part_kept sc st) parts' (map (option_map (s_str sc)) (map (fun vv => nulled st (or_default st vv)) parts)).
Proof.
  exists (map (or_default st) parts). split.
  - induction parts as [|p l IH]; cbn [map]; constructor; [apply with_default_iff; reflexivity|exact IH].
  - induction parts as [|p l IH]; cbn [map]; constructor; [|exact IH]. unfold nulled. destruct (str_mem (or_default st p) (st_null st)) eqn:E; cbn [option_map].
    + apply pk_null. apply str_mem_In. exact E.
    + apply pk_text. apply str_mem_false. exact E.
Qed.
Definition lax_val (st : @settings V) (text : pystr) : pyval V := match fst (col_read sc false st text) with Ok x => x | Err _ => POne (s_str sc text) end.
Lemma lax_val_ok st text : st_separator st <> Some [] -> (forall e, cell_reads sc st text (Err e) -> e = ValueError) ->
  lenient sc st text (lax_val st text) /\ forall e, fst (col_read sc false st text) = Err e -> e = ValueError.
Proof.
  intros S W. assert (W' : forall e, fst (col_read sc false st text) = Err e -> e = ValueError) by (intros e H; apply W, col_read_spec, lax_err; assumption).
  split; [|exact W'].
  destruct (quiet_cell sc st text) as [Q _]. destruct (fst (col_read sc true st text)) as [x|e] eqn:E.
  - unfold lax_val. rewrite Q. apply le_valid, col_read_spec; assumption.
  - clear Q. assert (e = ValueError) by (apply W, col_read_spec; assumption). subst e. pose proof E as R. apply col_read_spec in R; [|exact S]. unfold lax_val. unfold col_read in *. cbn zeta in *.
    destruct (st_required st && str_mem (or_default st text) (st_null st)) eqn:Er.
    + cbn [fst]. apply le_text; [exact R|right]. apply andb_true_iff in Er. destruct Er as [E1 E2]. apply str_mem_In in E2. exists (or_default st text). split; [apply with_default_iff; reflexivity|auto].
    + destruct (st_separator st) as [sep|] eqn:Es; cbn [fst] in *; [|rewrite E; apply le_text; [exact R|left; exact Es]].
      destruct (or_default st text) as [|y t] eqn:Eo; [discriminate E|]. destruct (str_mem (y :: t) (st_null st)) eqn:Em; [discriminate E|].
      destruct (mapM _ _) as [l|e] eqn:M; [discriminate E|]. cbn [fst] in *. destruct e; cbn [fst] in *; try discriminate E.
      assert (Hs : sep <> []) by (intros ->; apply S; reflexivity). destruct (parts_kept st (split sep (y :: t))) as (ps' & P1 & P2).
      refine (le_list sc st text (y :: t) sep (split sep (y :: t)) ps' _ R _ Es _ (split_parts sep (y :: t) Hs) P1 P2).
      * intros (s & H1 & H2 & H3). apply with_default_iff in H1. rewrite Eo in H1. subst s. apply str_mem_In in H3. rewrite H2, Em in *. discriminate.
      * apply with_default_iff. exact Eo.
Qed.
Lemma anon_val text : lax_val (settings_of (@desc0 V) []) text = untyped sc text.
Proof. destruct text; reflexivity. Qed.

(** *** one row *)
Definition entry (p : pystr * option (tcol V) * pystr) : pystr * pyval V :=
  (key_of (fst p), match snd (fst p) with Some c => lax_val (tc_st c) (snd p) | None => POne (s_str sc (snd p)) end).
Definition tame (hc : hcs) (row : list pystr) : Prop :=
  forall j k c v e, nth_error hc j = Some (k, Some c) -> nth_error row j = Some v -> fst (col_read sc false (tc_st c) v) = Err e -> e = ValueError.
Lemma read_cells_dict line (hc : hcs) : forall row j d, tame hc row ->
  ro_exn (read_cells sc false false line j hc row d) = None /\ ro_dict (read_cells sc false false line j hc row d) = dset_all str_eqb d (map entry (combine hc row)).
Proof.
  induction hc as [|[k oc] hc IH]; intros row j d T; [split; reflexivity|].
  destruct row as [|v row]; [destruct oc; split; reflexivity|].
  assert (T' : tame hc row) by (intros i; exact (T (S i))).
  destruct oc as [c|]; cbn [read_cells combine map].
  - unfold dset_all. cbn [fold_left]. fold (@dset_all pystr (pyval V) str_eqb). unfold entry at 1 3. cbn [fst snd key_of]. unfold lax_val.
    pose proof (T 0%nat k c v) as T0. destruct (fst (col_read sc false (tc_st c) v)) as [x|e].
    + cbn [ro_push ro_exn ro_dict]. exact (IH row (S j) _ T').
    + rewrite (T0 e eq_refl eq_refl eq_refl). cbn [ro_push ro_exn ro_dict]. exact (IH row (S j) _ T').
  - cbn [ro_push ro_exn ro_dict]. exact (IH row (S j) _ T').
Qed.
Lemma entry_keys (hc : hcs) row : map fst (map entry (combine hc row)) = firstn (length row) (map key_of hc).
Proof.
  revert row. induction hc as [|e hc IH]; intros [|v row]; cbn [combine map firstn length]; try reflexivity. rewrite IH. reflexivity.
Qed.
Definition absent (d : dict V) (ks : list pystr) : list (pystr * pyval V) := map (fun k => (k, PNone)) (filter (fun k => negb (str_mem k (map fst d))) ks).
Lemma str_mem_app a b (k : pystr) : str_mem k (a ++ b) = str_mem k a || str_mem k b.
Proof. unfold str_mem. apply existsb_app. Qed.
Lemma setdefault_new ks : NoDup ks -> forall d, setdefault_all d ks = d ++ absent d ks.
Proof.
  induction 1 as [|k ks Nk ND IH]; intros d; [symmetry; apply app_nil_r|].
  change (setdefault_all d (k :: ks)) with (setdefault_all (match dget str_eqb d k with Some _ => d | None => dset str_eqb d k PNone end) ks). unfold absent. cbn [filter].
  destruct (dget str_eqb d k) as [x|] eqn:E.
  - assert (M : str_mem k (map fst d) = true) by (apply str_mem_In; apply dget_In_pair in E; apply (in_map fst) in E; exact E). rewrite M. cbn [negb]. apply IH.
  - apply dget_None_keys in E. assert (M : str_mem k (map fst d) = false) by (apply str_mem_false; exact E). rewrite M. cbn [negb map]. rewrite IH, (dset_new str_eqb str_eqb_eq) by exact E. rewrite <- app_assoc. cbn [app]. do 2 f_equal. unfold absent. f_equal.
    apply filter_ext_in. intros a Ha. rewrite map_app, str_mem_app. cbn [map fst]. assert (Ea : str_mem a [k] = false) by (apply str_mem_false; intros [->|[]]; exact (Nk Ha)). rewrite Ea, orb_false_r. reflexivity.
Qed.
Lemma add_virtual_new vs : forall d d', NoDup (map fst d ++ map fst vs) -> add_virtual sc expand d vs = Ok d' ->
  exists virt, d' = d ++ virt /\ map fst virt = map fst vs /\
  forall before k x after u, virt = before ++ (k, x) :: after -> nth_error vs (length before) = Some (k, u) -> exists s, expand u (d ++ before) = Ok s /\ x = POne (s_str sc s).
Proof.
  induction vs as [|[k u] vs IH]; intros d d' ND H; cbn [add_virtual] in H.
  - apply Ok_inj in H. subst d'. exists []. split; [symmetry; apply app_nil_r|]. split; [reflexivity|]. intros before k x after u E. destruct before; discriminate E.
  - destruct (expand u d) as [s|] eqn:E; [|discriminate H]. cbn [bind] in H. rewrite (dset_new str_eqb str_eqb_eq) in H.
    2:{ cbn [map fst] in ND. apply NoDup_remove_2 in ND. intros K. apply ND. apply in_or_app. left. exact K. }
    assert (ND' : NoDup (map fst (d ++ [(k, POne (s_str sc s))]) ++ map fst vs)) by (rewrite map_app, <- app_assoc; exact ND). destruct (IH _ d' ND' H) as (virt & -> & K & X). exists ((k, POne (s_str sc s)) :: virt). split; [rewrite <- app_assoc; reflexivity|]. split; [cbn [map fst]; rewrite K; reflexivity|].
    intros [|[k1 x1] before] k' x after u' Ev Eu; cbn [app] in Ev.
    + injection Ev as <- <- _. cbn in Eu. injection Eu as <-. exists s. rewrite app_nil_r. auto.
    + injection Ev as <- <- Ev. destruct (X before k' x after u' Ev Eu) as (s' & H1 & H2). exists s'. split; [|exact H2]. rewrite <- app_assoc in H1. exact H1.
Qed.
Lemma process_dict_lax cols line (hc : hcs) row : (forall u d, exists s, expand u d = Ok s) -> tame hc row -> complete_row hc row ->
  NoDup (map key_of hc) -> NoDup (colnames cols) -> (forall k, In k (map fst (virtualcols cols)) -> ~ In k (map key_of hc) /\ ~ In k (colnames cols)) -> NoDup (map fst (virtualcols cols)) ->
  exists d virt, process_row sc expand false false cols line hc row = {| ro_dict := d; ro_msgs := []; ro_warns := ro_warns (read_cells sc false false line 0 hc row []); ro_exn := None |}
  /\ let cells := map entry (combine hc row) in let rest := absent cells (colnames cols) in
     d = cells ++ rest ++ virt /\ map fst virt = map fst (virtualcols cols) /\
     forall before k x after u, virt = before ++ (k, x) :: after -> nth_error (virtualcols cols) (length before) = Some (k, u) -> exists s, expand u (cells ++ rest ++ before) = Ok s /\ x = POne (s_str sc s).
Proof.
  intros Tx T C N1 N2 Nv N3. unfold process_row. destruct (read_cells_dict line hc row 0 [] T) as [E D]. rewrite E.
  destruct (read_cells_lax sc expand line hc row 0 []) as (_ & M & K). specialize (K E).
  assert (Mc : missing_cells line hc row (ro_dict (read_cells sc false false line 0 hc row [])) = []).
  { apply (proj2 (missing_nil expand line hc row _)). intros j k c Hj R. rewrite seen_keys_iff, K. destruct (C j k c Hj R) as (i & e & Hi & He & Hk). destruct Hk as [[<- Hs]|Hk].
    - destruct e as [k' [c'|]]; [|exfalso; apply Hs; reflexivity]. left. exists i, c'. auto.
    - right. right. exists i, e. auto. }
  rewrite Mc. cbn [negb andb]. rewrite D, M.
  assert (Nc : NoDup (map fst (map entry (combine hc row)))) by (rewrite entry_keys; apply firstn_nodup; exact N1).
  rewrite (dset_all_new str_eqb str_eqb_eq) by exact Nc. cbn [app]. rewrite setdefault_new by exact N2.
  set (cells := map entry (combine hc row)) in *. set (rest := absent cells (colnames cols)).
  destruct (add_virtual_total sc expand Tx (virtualcols cols) (cells ++ rest)) as [d' A]. rewrite A.
  assert (In_cells : forall k, In k (map fst cells) -> In k (map key_of hc)).
  { intros k. unfold cells. rewrite entry_keys. intros H. rewrite <- (firstn_skipn (length row) (map key_of hc)). apply in_or_app. left. exact H. }
  assert (Rk : map fst rest = filter (fun k => negb (str_mem k (map fst cells))) (colnames cols)) by (unfold rest, absent; rewrite map_map; apply map_id).
  apply add_virtual_new in A.
  - destruct A as (virt & -> & Kv & X). exists ((cells ++ rest) ++ virt), virt. split; [reflexivity|]. cbn zeta. fold cells rest. split; [symmetry; apply app_assoc|]. split; [exact Kv|]. intros before k x after u H1 H2. rewrite app_assoc. exact (X before k x after u H1 H2).
  - rewrite map_app, Rk. apply NoDup_app2; [apply NoDup_app2; [exact Nc|apply NoDup_filter; exact N2|]|exact N3|].
    + intros k Hk Hf. apply filter_In in Hf. destruct Hf as [_ Hf]. apply str_mem_In in Hk. rewrite Hk in Hf. discriminate Hf.
    + intros k Hk Hv. destruct (Nv k Hv) as [A1 B]. apply in_app_or in Hk. destruct Hk as [Hk|Hk]; [exact (A1 (In_cells k Hk))|]. apply filter_In in Hk. exact (B (proj1 Hk)).
Qed.
(** *** all rows *)
Lemma iter_dicts_lax cols (hc : hcs) rows : (forall u d, exists s, expand u d = Ok s) -> hc <> [] ->
  NoDup (map key_of hc) -> NoDup (colnames cols) -> (forall k, In k (map fst (virtualcols cols)) -> ~ In k (map key_of hc) /\ ~ In k (colnames cols)) -> NoDup (map fst (virtualcols cols)) ->
  (forall line row, In (line, row) rows -> tame hc row /\ complete_row hc row) ->
  io_end (iter_rows sc expand false false cols hc rows None) = None
  /\ Forall2 (fun lr ld => fst lr = fst ld /\ exists virt, let cells := map entry (combine hc (snd lr)) in let rest := absent cells (colnames cols) in
     snd ld = cells ++ rest ++ virt /\ map fst virt = map fst (virtualcols cols) /\
     forall before k x after u, virt = before ++ (k, x) :: after -> nth_error (virtualcols cols) (length before) = Some (k, u) -> exists s, expand u (cells ++ rest ++ before) = Ok s /\ x = POne (s_str sc s))
     rows (io_rows (iter_rows sc expand false false cols hc rows None)).
Proof.
  intros Tx NE N1 N2 Nv N3. induction rows as [|[line row] rows IH]; intros R; [split; [reflexivity|constructor]|].
  cbn [iter_rows]. rewrite ensure_nonempty by exact NE. destruct (R line row (or_introl eq_refl)) as [T C].
  destruct (process_dict_lax cols line hc row Tx T C N1 N2 Nv N3) as (d & virt & -> & X). cbn [ro_exn io_cons io_end io_rows ro_msgs ro_dict].
  destruct (IH (fun l r H => R l r (or_intror H))) as [I1 I2]. split; [exact I1|]. constructor; [|exact I2]. split; [reflexivity|]. exists virt. exact X.
Qed.
End Cells.
