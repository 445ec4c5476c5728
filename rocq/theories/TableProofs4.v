(** Proofs about reading tables: C29, C30. *)
From Verif Require Import PyStr PyCsv Dsv DsvSpec DsvProofs4 Column ColumnProofs2 Schema Table TableSpec TableProofs TableProofs2 TableProofs3.
From Coq Require Import Lia.

Section P.
Context {V : Type} (sc : scalars V) (expand : pystr -> dict V -> res pystr).
Implicit Types (c : tcol V) (d : dict V).
Notation hcs := (list (pystr * option (tcol V))).

(** ** C29 *)
Definition col_for (cols : list (tcol V)) (h : pystr) : option (tcol V) := find (fun c => str_eqb (tc_header c) h) cols.
Lemma col_for_header cols c : distinct_headers cols -> In c cols -> col_for cols (tc_header c) = Some c.
Proof.
  intros Hd Hc. unfold col_for. destruct (find (fun c0 => str_eqb (tc_header c0) (tc_header c)) cols) as [c'|] eqn:E.
  - apply find_some in E. destruct E as [E1 E2]. apply str_eqb_eq in E2. f_equal. eapply nodup_header_eq; eassumption.
  - exfalso. eapply find_none in E; [|exact Hc]. cbn in E. rewrite (proj2 (str_eqb_eq _ _) eq_refl) in E. discriminate.
Qed.
Lemma matched_perm cols hdr (hc : hcs) : distinct_headers cols -> matched cols hdr hc ->
  (forall h, In h hdr -> In h (map tc_header cols)) -> hc = map (fun h => (h, col_for cols h)) hdr.
Proof.
  intros Hd (M1 & M2 & M3) Hin. subst hdr. rewrite map_map. rewrite <- (map_id hc) at 1. apply map_ext_in. intros [h oc] Hh. cbn.
  assert (Hh' : In h (map tc_header cols)) by (apply Hin; apply in_map_iff; exists (h, oc); auto).
  f_equal. destruct oc as [c|].
  - destruct (M2 _ _ Hh) as (C1 & _ & C3). rewrite <- (C3 Hh'). symmetry. apply col_for_header; assumption.
  - exfalso. apply in_map_iff in Hh'. destruct Hh' as (c & E & Hc). apply (M3 _ Hh c Hc). left. symmetry. exact E.
Qed.
Lemma combine_map_l {A B C} (f : A -> B) (l : list A) (l' : list C) :
  combine (map f l) l' = map (fun p => (f (fst p), snd p)) (combine l l').
Proof. revert l'; induction l as [|a l IH]; intros [|b l']; cbn; [reflexivity..|]. rewrite IH. reflexivity. Qed.

Lemma cells_msgs_nil line j (hc : hcs) : forall row, cells_msgs sc line j hc row = [] <->
  forall k c v, In ((k, Some c), v) (combine hc row) -> exists x, fst (col_read sc true (tc_st c) v) = Ok x.
Proof.
  revert j; induction hc as [|[k oc] hc IH]; intros j row.
  - split; [intros _ k c v []|reflexivity].
  - destruct row as [|v row]; [split; [intros _ k' c' v' []|destruct oc; reflexivity]|].
    cbn [combine]. destruct oc as [c|]; cbn [cells_msgs].
    + destruct (fst (col_read sc true (tc_st c) v)) as [x|e] eqn:E.
      * rewrite IH. split.
        { intros H k' c' v' [X|X]; [injection X as <- <- <-; eauto|eapply H; exact X]. }
        { intros H k' c' v' X. eapply H. right. exact X. }
      * split; [discriminate|]. intros H. destruct (H k c v (or_introl eq_refl)) as [x Hx]. congruence.
    + rewrite IH. split.
      * intros H k' c' v' [X|X]; [discriminate|eapply H; exact X].
      * intros H k' c' v' X. eapply H. right. exact X.
Qed.
Lemma missing_full line (hc : hcs) row : length row = length hc -> NoDup (map fst hc) ->
  missing_cells line hc row (cells_dict sc (combine hc row) []) = [].
Proof.
  intros Hl Hn. unfold missing_cells. apply flat_map_nil. intros [k j] Hin. cbn [fst snd].
  rewrite (required_keys_flat hc Hn) in Hin. apply in_flat_map in Hin. destruct Hin as (i & Hi & Hin).
  destruct (nth_error hc i) as [[k' [c|]]|] eqn:E; try destruct Hin. destruct (tc_required c); [|destruct Hin].
  destruct Hin as [X|[]]. injection X as -> ->.
  replace (str_mem k (seen_keys hc (length row))) with true; [reflexivity|]. symmetry. apply str_mem_In.
  apply in_flat_map. exists (k, Some c). split; [|left; reflexivity]. rewrite Hl, firstn_all. eapply nth_error_In; exact E.
Qed.

Lemma iter_rows_perm cols (hc hc' : hcs) endr log : hc <> [] -> hc' <> [] -> expands expand ->
  forall data data',
  Forall2 (fun lr lr' => fst lr = fst lr' /\ (row_msgs sc (fst lr) hc (snd lr) = [] <-> row_msgs sc (fst lr') hc' (snd lr') = [])
    /\ only_value_errors sc hc (snd lr) /\ only_value_errors sc hc' (snd lr')
    /\ same_mapping (cells_dict sc (combine hc (snd lr)) []) (cells_dict sc (combine hc' (snd lr')) [])) data data' ->
  let o := iter_rows sc expand true log cols hc data endr in
  let o' := iter_rows sc expand true log cols hc' data' endr in
  io_end o = io_end o' /\ Forall2 (fun y y' => fst y = fst y' /\ same_mapping (snd y) (snd y')) (io_rows o) (io_rows o').
Proof.
  intros H1 H2 Hx data data' H. destruct Hx as [Hx Hs]. induction H as [|[l row] [l' row'] data data' (E & Hm & V1 & V2 & Hd) H IH]; cbn zeta.
  - split; [reflexivity|constructor].
  - cbn [fst snd] in *. subst l'. cbn [iter_rows]. rewrite !ensure_nonempty by assumption.
    destruct (add_virtual_total sc expand Hx (virtualcols cols) (setdefault_all (cells_dict sc (combine hc row) []) (colnames cols))) as [dd Hdd].
    destruct (add_virtual_same sc expand (virtualcols cols) (conj Hx Hs) _ _ _ (setdefault_same _ _ (colnames cols) Hd) Hdd) as (dd' & Hdd' & Hsame).
    cbn zeta in IH. destruct IH as [I1 I2]. destruct log.
    + destruct (process_log sc expand cols l hc row dd V1 Hdd) as (A & B & C).
      destruct (process_log sc expand cols l hc' row' dd' V2 Hdd') as (A' & B' & C').
      rewrite A, A'. cbn [io_end io_rows io_cons]. split; [exact I1|]. rewrite B, B', C, C'.
      destruct (row_msgs sc l hc row) eqn:X, (row_msgs sc l hc' row') eqn:X'.
      * constructor; [split; [reflexivity|exact Hsame]|exact I2].
      * exfalso. destruct Hm as [Hm _]. specialize (Hm eq_refl). discriminate.
      * exfalso. destruct Hm as [_ Hm]. specialize (Hm eq_refl). discriminate.
      * exact I2.
    + destruct (process_nolog sc expand cols l hc row dd V1 Hdd) as (A & B).
      destruct (process_nolog sc expand cols l hc' row' dd' V2 Hdd') as (A' & B').
      destruct (row_msgs sc l hc row) eqn:X, (row_msgs sc l hc' row') eqn:X'.
      * destruct B as [B1 B2], B' as [B1' B2']. rewrite B1, B1'. cbn [io_end io_rows io_cons]. split; [exact I1|]. rewrite A, A', B2, B2'.
        constructor; [split; [reflexivity|exact Hsame]|exact I2].
      * exfalso. destruct Hm as [Hm _]. specialize (Hm eq_refl). discriminate.
      * exfalso. destruct Hm as [_ Hm]. specialize (Hm eq_refl). discriminate.
      * rewrite B, B'. cbn. split; [reflexivity|constructor].
Qed.

Theorem order_theorem lim dl lang (cols : list (tcol V)) file file' l l' hdr' data data' endr log :
  d_header dl = true -> let hdr := map tc_header (filter (fun c => negb (tc_virtual c)) cols) in hdr <> [] ->
  reader_with_line_number lim (Some dl) kw0 file = Ok ((l, hdr) :: data, endr) ->
  reader_with_line_number lim (Some dl) kw0 file' = Ok ((l', hdr') :: data', endr) ->
  Permutation hdr hdr' -> Forall2 (permuted hdr hdr') data data' ->
  regular_first cols -> titles_readable cols -> distinct_headers cols -> expands expand ->
  (forall lr c v e, In lr data -> In c cols -> In v (snd lr) -> fst (col_read sc true (tc_st c) v) = Err e -> e = ValueError) ->
  let o := iterdicts sc expand lim dl lang true log cols file in
  let o' := iterdicts sc expand lim dl lang true log cols file' in
  io_end o = io_end o' /\ Forall2 (fun y y' => fst y = fst y' /\ same_mapping (snd y) (snd y')) (io_rows o) (io_rows o').
Proof.
  intros Hh hdr Hne Hr Hr' Hp Hf Hreg Htit Hdist Hx Hv. cbn zeta.
  assert (Hin : forall h, In h hdr -> In h (map tc_header cols)).
  { intros h Hh'. unfold hdr in Hh'. apply in_map_iff in Hh'. destruct Hh' as (c & <- & Hc). apply filter_In in Hc. apply in_map. apply Hc. }
  assert (Hin' : forall h, In h hdr' -> In h (map tc_header cols)).
  { intros h Hh'. apply Hin. eapply Permutation_in; [apply Permutation_sym; exact Hp|exact Hh']. }
  destruct (header_cols_strict cols hdr Hreg Htit) as (hc & Hhc & Hm).
  destruct (header_cols_strict cols hdr' Hreg Htit) as (hc' & Hhc' & Hm').
  pose proof (matched_perm _ _ _ Hdist Hm Hin) as E. pose proof (matched_perm _ _ _ Hdist Hm' Hin') as E'.
  rewrite (iterdicts_data sc expand lim dl lang cols file _ endr hdr data log Hr) by (unfold header_and_data; rewrite Hh; eauto).
  rewrite (iterdicts_data sc expand lim dl lang cols file' _ endr hdr' data' log Hr') by (unfold header_and_data; rewrite Hh; eauto).
  unfold iter_data. rewrite Hhc, Hhc'.
  assert (Hmiss : missing_required cols hc = missing_required cols hc').
  { apply Bool.eq_true_iff_eq. rewrite <- !Bool.not_false_iff_true, !missing_required_iff. unfold required_present.
    assert (G : forall h c, In (h, Some c) hc <-> In (h, Some c) hc').
    { intros h c. rewrite E, E', !in_map_iff. split; intros (x & X & Y); exists x; (split; [exact X|]);
        (eapply Permutation_in; [|exact Y]); [exact Hp|apply Permutation_sym; exact Hp]. }
    split; intros H H'; apply H; intros c Hc Hq; destruct (H' c Hc Hq) as (h & c' & A & B); exists h, c'; (split; [apply G; exact A|exact B]). }
  rewrite <- Hmiss. destruct (missing_required cols hc); [cbn; split; [reflexivity|constructor]|]. cbn [io_end io_rows].
  assert (Hdn : NoDup hdr). { unfold hdr. clear -Hdist. unfold distinct_headers in Hdist. induction cols as [|a cols IH]; [constructor|].
    cbn in *. apply NoDup_cons_iff in Hdist. destruct Hdist as [Ha Hdist]. destruct (negb (tc_virtual a)); cbn; [|apply IH; exact Hdist].
    constructor; [|apply IH; exact Hdist]. intros X. apply Ha. apply in_map_iff in X. destruct X as (y & <- & Hy). apply filter_In in Hy. apply in_map. apply Hy. }
  assert (Hdn' : NoDup hdr') by (eapply Permutation_NoDup; eassumption).
  apply iter_rows_perm; [|  |exact Hx|].
  - intros X. apply Hne. destruct Hm as [M _]. rewrite <- M, X. reflexivity.
  - intros X. apply Hne. destruct Hm' as [M _]. rewrite X in M. cbn in M. rewrite <- M in Hp. apply Permutation_sym, Permutation_nil in Hp. exact Hp.
  - assert (Hfst : map fst hc = hdr) by apply Hm. assert (Hfst' : map fst hc' = hdr') by apply Hm'.
    assert (Hlen : length hc = length hdr) by (rewrite <- Hfst, map_length; reflexivity).
    assert (Hlen' : length hc' = length hdr') by (rewrite <- Hfst', map_length; reflexivity).
    assert (Hall : forall lr, In lr data -> forall c v e, In c cols -> In v (snd lr) -> fst (col_read sc true (tc_st c) v) = Err e -> e = ValueError) by (intros lr H c v e; apply Hv; exact H).
    clear Hv Hr Hr'. induction Hf as [|[n row] [n' row'] data data' (F1 & F2 & F3 & F4) Hf IH]; [constructor|].
    constructor; [|apply IH; intros lr Hlr; apply Hall; right; exact Hlr]. cbn [fst snd] in *. subst n'.
    assert (HP : Permutation (combine hc row) (combine hc' row')).
    { rewrite E, E', !combine_map_l. apply Permutation_map. exact F4. }
    assert (V1 : only_value_errors sc hc row).
    { intros j k c v e H1 H2. apply (Hall (n, row) (or_introl eq_refl) c v e); [|eapply nth_error_In; exact H2].
      destruct Hm as (_ & M2 & _). apply (M2 k c). eapply nth_error_In; exact H1. }
    assert (V2 : only_value_errors sc hc' row').
    { intros j k c v e H1 H2. pose proof (nth_error_In _ _ (nth_error_combine _ _ _ _ _ H1 H2)) as H3.
      apply (Permutation_in _ (Permutation_sym HP)) in H3. apply In_nth_error in H3. destruct H3 as [i H3]. apply nth_error_combine_inv in H3.
      destruct H3 as [H3 H4]. exact (V1 i k c v e H3 H4). }
    split; [reflexivity|]. split; [|split; [exact V1|split; [exact V2|]]].
    + unfold row_msgs. rewrite !missing_full by congruence. rewrite !app_nil_r, !cells_msgs_nil.
      split; intros H k c v X; eapply H; eapply Permutation_in; try exact X; [apply Permutation_sym; exact HP|exact HP].
    + refine (cells_dict_perm sc expand _ _ _ HP). rewrite map_pkey_combine. apply firstn_nodup. rewrite E, map_map. 
      rewrite (map_ext_in _ (fun h => h)); [rewrite map_id; exact Hdn|]. intros h Hh'. unfold entry_key. cbn.
      apply Hin in Hh'. apply in_map_iff in Hh'. destruct Hh' as (c & <- & Hc). rewrite (col_for_header cols c Hdist Hc). reflexivity.
Qed.

(** ** C30 *)
Lemma iter_rows_in strict log cols endr rows : forall hc y, In y (io_rows (iter_rows sc expand strict log cols hc rows endr)) ->
  exists hc' row, In (fst y, row) rows /\ (hc <> [] -> hc' = hc) /\
    ro_exn (process_row sc expand strict log cols (fst y) hc' row) = None /\
    ro_msgs (process_row sc expand strict log cols (fst y) hc' row) = [] /\
    ro_dict (process_row sc expand strict log cols (fst y) hc' row) = snd y.
Proof.
  induction rows as [|[line row] rows IH]; intros hc y Hin; cbn [iter_rows] in Hin; [destruct Hin|].
  destruct (ro_exn (process_row sc expand strict log cols line (ensure_cols hc row) row)) eqn:E; [destruct Hin|].
  cbn [io_rows io_cons] in Hin.
  assert (G : In y (io_rows (iter_rows sc expand strict log cols (ensure_cols hc row) rows endr)) ->
    exists hc' row0, In (fst y, row0) ((line, row) :: rows) /\ (hc <> [] -> hc' = hc) /\
    ro_exn (process_row sc expand strict log cols (fst y) hc' row0) = None /\
    ro_msgs (process_row sc expand strict log cols (fst y) hc' row0) = [] /\
    ro_dict (process_row sc expand strict log cols (fst y) hc' row0) = snd y).
  { intros H. apply IH in H. destruct H as (hc' & row0 & H1 & H2 & H3). exists hc', row0. split; [right; exact H1|]. split; [|exact H3].
    intros Hn. rewrite (ensure_nonempty hc row Hn) in H2. apply H2. exact Hn. }
  destruct (ro_msgs (process_row sc expand strict log cols line (ensure_cols hc row) row)) eqn:Em; [|apply G; exact Hin].
  destruct Hin as [<-|Hin]; [|apply G; exact Hin]. exists (ensure_cols hc row), row. cbn [fst snd].
  split; [left; reflexivity|]. split; [apply ensure_nonempty|]. auto.
Qed.
Lemma process_dict strict log cols line hc row : ro_exn (process_row sc expand strict log cols line hc row) = None ->
  ro_exn (read_cells sc strict log line 0 hc row []) = None /\
  add_virtual sc expand (setdefault_all (ro_dict (read_cells sc strict log line 0 hc row [])) (colnames cols)) (virtualcols cols)
  = Ok (ro_dict (process_row sc expand strict log cols line hc row))
  /\ ro_msgs (process_row sc expand strict log cols line hc row)
     = ro_msgs (read_cells sc strict log line 0 hc row []) ++ missing_cells line hc row (ro_dict (read_cells sc strict log line 0 hc row [])).
Proof.
  unfold process_row. destruct (ro_exn (read_cells sc strict log line 0 hc row [])) eqn:E; [congruence|]. intros H. split; [reflexivity|].
  destruct (missing_cells line hc row (ro_dict (read_cells sc strict log line 0 hc row []))) eqn:Em.
  - rewrite andb_false_r in *. destruct (add_virtual _ _ _ _); cbn in *; [auto|discriminate].
  - cbn [negb andb] in *. destruct log; cbn [negb andb] in *; [|discriminate].
    destruct (add_virtual _ _ _ _); cbn in *; [auto|discriminate].
Qed.
Theorem all_keys lim dl lang strict log (cols : list (tcol V)) file line d c :
  In (line, d) (io_rows (iterdicts sc expand lim dl lang strict log cols file)) ->
  In c cols -> tc_virtual c = false -> has_key d (tc_header c).
Proof.
  intros Hin Hc Hv.
  assert (G : forall hdr ws rows endr, In (line, d) (io_rows (iter_data sc expand strict log cols hdr ws rows endr)) -> has_key d (tc_header c)).
  { intros hdr ws rows endr H. unfold iter_data in H. destruct (header_cols strict cols hdr) as [hc|]; [|destruct H].
    destruct (missing_required cols hc); [destruct H|]. cbn [io_rows] in H. apply iter_rows_in in H.
    destruct H as (hc' & row & _ & _ & H1 & _ & H3). apply process_dict in H1. destruct H1 as (_ & H1 & _). cbn [snd fst] in *. rewrite H3 in H1.
    eapply add_virtual_not_none; [exact H1|]. unfold has_key. rewrite setdefault_get.
    destruct (dget str_eqb _ (tc_header c)); [discriminate|].
    replace (str_mem (tc_header c) (colnames cols)) with true; [discriminate|]. symmetry. apply str_mem_In.
    apply in_map. apply filter_In. rewrite Hv. auto. }
  unfold iterdicts in Hin. destruct (reader_with_line_number lim (Some dl) kw0 file) as [[rows endr]|]; [|destruct Hin].
  destruct (d_header dl); [|eapply G; exact Hin]. destruct rows as [|[l hdr] rows]; [destruct Hin|]. eapply G; exact Hin.
Qed.

Theorem missing_required_theorem lim dl lang log (cols : list (tcol V)) file rows endr hdr data c :
  reader_with_line_number lim (Some dl) kw0 file = Ok (rows, endr) -> header_and_data dl cols rows hdr data ->
  regular_first cols -> titles_readable cols -> distinct_headers cols ->
  In c cols -> tc_required c = true -> (forall h, In h hdr -> ~ refers c h) ->
  let o := iterdicts sc expand lim dl lang true log cols file in
  io_rows o = [] /\ io_end o = Some ValueError.
Proof.
  intros Hr Hhd Hreg Htit Hdist Hc Hq Hn. cbn zeta. rewrite (iterdicts_data sc expand lim dl lang cols file _ _ _ _ log Hr Hhd).
  destruct (header_cols_strict cols hdr Hreg Htit) as (hc & Hhc & Hm). unfold iter_data. rewrite Hhc.
  destruct (missing_required cols hc) eqn:E; [cbn; auto|]. exfalso. apply missing_required_iff in E.
  destruct (E c Hc Hq) as (h & c' & Hin & Eh). destruct Hm as (M1 & M2 & _). destruct (M2 _ _ Hin) as (C1 & C2 & _).
  assert (c' = c) by (eapply nodup_header_eq; eassumption). subst c'. apply (Hn h); [|exact C2].
  rewrite <- M1. apply in_map_iff. exists (h, Some c). auto.
Qed.

(** functional: the same name is matched to the same column *)
Lemma header_cols_functional (cols : list (tcol V)) hdr hc : regular_first cols -> distinct_headers cols -> header_cols true cols hdr = Ok hc ->
  forall h oc oc', In (h, oc) hc -> In (h, oc') hc -> oc = oc'.
Proof.
  intros Hreg Hd H h oc oc' H1 H2. unfold header_cols in H. destruct (list_eq_dec str_eq_dec hdr (colnames cols)) as [->|_]; cbn [orb negb andb] in H.
  - rewrite (own_header_cols cols Hreg) in H. injection H as <-. apply in_map_iff in H1, H2.
    destruct H1 as (c1 & X1 & Y1), H2 as (c2 & X2 & Y2). injection X1 as X1 <-. injection X2 as X2 <-. f_equal.
    apply filter_In in Y1, Y2. eapply nodup_header_eq; [exact Hd|apply Y1|apply Y2|congruence].
  - rewrite andb_false_r in H.
    assert (G : forall x oc0, In (x, oc0) hc -> get_column cols x = Ok oc0).
    { clear H1 H2. revert hc H. induction hdr as [|a hdr IH]; intros hc H x oc0 Hin; cbn in H; [injection H as <-; destruct Hin|].
      destruct (get_column cols a) as [r|] eqn:Ea; [|discriminate]. cbn in H.
      destruct (mapM (fun h0 => c <- get_column cols h0;; Ok (h0, c)) hdr) as [hc0|]; [|discriminate]. injection H as <-.
      destruct Hin as [X|Hin]; [injection X as <- <-; exact Ea|]. eapply IH; [reflexivity|exact Hin]. }
    pose proof (G _ _ H1). pose proof (G _ _ H2). congruence.
Qed.
Lemma read_cells_clean log line (hc : hcs) : forall row j d, ro_exn (read_cells sc true log line j hc row d) = None ->
  ro_msgs (read_cells sc true log line j hc row d) = [] ->
  (forall k c v, In ((k, Some c), v) (combine hc row) -> exists x, fst (col_read sc true (tc_st c) v) = Ok x)
  /\ ro_dict (read_cells sc true log line j hc row d) = cells_dict sc (combine hc row) d.
Proof.
  induction hc as [|[k oc] hc IH]; intros row j d H1 H2; [split; [intros k c v []|reflexivity]|].
  destruct row as [|v row]; [destruct oc; (split; [intros k' c' v' []|reflexivity])|].
  destruct oc as [c|]; cbn [read_cells combine cells_dict] in *.
  - destruct (fst (col_read sc true (tc_st c) v)) as [x|e] eqn:E.
    + cbn in H1, H2. destruct (IH _ _ _ H1 H2) as [I1 I2]. split; [|cbn; exact I2].
      intros k' c' v' [X|X]; [injection X as <- <- <-; eauto|eapply I1; exact X].
    + destruct e; try discriminate H1. destruct log; discriminate.
  - cbn in H1, H2. destruct (IH _ _ _ H1 H2) as [I1 I2]. split; [|cbn; exact I2].
    intros k' c' v' [X|X]; [discriminate|eapply I1; exact X].
Qed.
Lemma cells_dict_notnone ps k : forall d,
  (forall p, In p ps -> pkey p = k -> exists x, pval sc p = Ok x /\ x <> PNone) ->
  (exists p, In p ps /\ pkey p = k) \/ (exists x, dget str_eqb d k = Some x /\ x <> PNone) ->
  exists x, dget str_eqb (cells_dict sc ps d) k = Some x /\ x <> PNone.
Proof.
  induction ps as [|p ps IH]; intros d H1 H2; [destruct H2 as [(p & [] & _)|H2]; exact H2|].
  rewrite cells_dict_cons. destruct (str_eq_dec (pkey p) k) as [E|E].
  - destruct (H1 p (or_introl eq_refl) E) as (x & -> & Hx). apply IH; [intros q Hq; apply H1; right; exact Hq|].
    right. exists x. rewrite E, dget_dset_same. auto.
  - assert (Hb : (exists p0, In p0 ps /\ pkey p0 = k) \/ (exists x, dget str_eqb d k = Some x /\ x <> PNone)).
    { destruct H2 as [(q & [->|Hq] & Eq)|H2]; [contradiction|left; eauto|right; exact H2]. }
    destruct (pval sc p); apply IH; try (intros q Hq; apply H1; right; exact Hq); [|exact Hb].
    destruct Hb as [Hb|(x & Hx & Hx')]; [left; exact Hb|right]. exists x. rewrite dget_dset_other; [auto|]. intros X. apply E. symmetry. exact X.
Qed.
Theorem required_not_none lim dl lang log (cols : list (tcol V)) file line d c s outer :
  tcols_of s outer = Ok cols ->
  regular_first cols -> titles_readable cols -> distinct_headers cols ->
  In (line, d) (io_rows (iterdicts sc expand lim dl lang true log cols file)) ->
  In c cols -> tc_required c = true -> dget str_eqb d (tc_header c) <> Some PNone.
Proof.
  intros Hcols Hreg Htit Hdist Hin Hc Hq.
  assert (Hst : st_required (tc_st c) = true).
  { unfold tcols_of in Hcols. apply mapM_Ok_inv in Hcols.
    assert (G : exists c0 : column V, tcol_of (s_desc s :: outer) c0 = Ok c).
    { clear -Hcols Hc. induction Hcols as [|x y l l' H1 H IH]; [destruct Hc|]. destruct Hc as [->|Hc]; [exists x; exact H1|auto]. }
    destruct G as (c0 & G). unfold tcol_of in G. destruct (header c0); [|discriminate]. cbn in G. injection G as <-.
    unfold tc_required in Hq. cbn in *. destruct (de_required (c_desc c0)); [exact Hq|discriminate]. }
  assert (G : forall hdr ws rows endr, hdr <> [] \/ hdr = colnames cols -> In (line, d) (io_rows (iter_data sc expand true log cols hdr ws rows endr)) ->
     dget str_eqb d (tc_header c) <> Some PNone).
  { intros hdr ws rows endr Hne H. unfold iter_data in H. destruct (header_cols true cols hdr) as [hc|] eqn:Hhc; [|destruct H].
    destruct (missing_required cols hc) eqn:Emr; [destruct H|]. cbn [io_rows] in H.
    apply missing_required_iff in Emr. destruct (Emr c Hc Hq) as (h & c' & Hh & Eh).
    destruct (header_cols_strict cols hdr Hreg Htit) as (hc0 & Hhc0 & Hm). rewrite Hhc in Hhc0. injection Hhc0 as <-.
    destruct Hm as (M1 & M2 & M3). destruct (M2 _ _ Hh) as (C1 & C2 & C3).
    assert (c' = c) by (eapply nodup_header_eq; eassumption). subst c'. clear Eh C1.
    assert (Hnn : hc <> []) by (intros ->; destruct Hh).
    apply iter_rows_in in H. destruct H as (hc' & row & _ & H0 & H1 & H2 & H3). rewrite (H0 Hnn) in *. clear H0. cbn [fst snd] in *.
    apply process_dict in H1. destruct H1 as (P1 & P2 & P3). rewrite H3 in P2. rewrite P3 in H2. apply app_eq_nil in H2. destruct H2 as [Q1 Q2].
    destruct (read_cells_clean log line hc row 0 [] P1 Q1) as [R1 R2]. rewrite R2 in P2, Q2.
    intros Hnone. apply (add_virtual_not_none _ _ _ _ _ _ P2) in Hnone. rewrite setdefault_get in Hnone.
    assert (Hkey : exists p, In p (combine hc row) /\ pkey p = tc_header c).
    { apply In_nth_error in Hh. destruct Hh as [j Hj]. destruct (nth_error row j) as [v|] eqn:Ev.
      { exists ((h, Some c), v). split; [|reflexivity]. eapply nth_error_In. apply nth_error_combine; eassumption. }
      (* the name h is among the required ones *)
      assert (Hrk : exists j', In (h, j') (required_keys hc)).
      { unfold required_keys. set (kvs := flat_map _ _). assert (X : In (h, j) kvs).
        { unfold kvs. apply in_flat_map. exists (j, (h, Some c)). split; [|cbn; rewrite Hq; left; reflexivity].
          apply nth_error_In with (n := j). apply nth_error_combine; [|exact Hj]. rewrite nth_error_seq; [reflexivity|]. apply nth_error_Some. congruence. }
        clear -X. assert (G : dget str_eqb (dset_all str_eqb [] kvs) h <> None).
        { rewrite (dget_dset_all _ str_eqb_eq). cbn. assert (Y : In (h, j) (rev kvs)) by (apply -> in_rev; exact X).
          revert Y. induction (rev kvs) as [|[a b] l IH]; intros Y; [destruct Y|]. cbn. destruct (str_eqb h a) eqn:E; [discriminate|].
          destruct Y as [Y|Y]; [injection Y as -> ->; rewrite (proj2 (str_eqb_eq _ _) eq_refl) in E; discriminate|]. apply IH. exact Y. }
        revert G. induction (dset_all str_eqb [] kvs) as [|[a b] l IH]; cbn; [congruence|]. destruct (str_eqb h a) eqn:E.
        - intros _. apply str_eqb_eq in E. subst a. exists b. left. reflexivity.
        - intros G. destruct (IH G) as [j' Hj']. exists j'. right. exact Hj'. }
      destruct Hrk as [j' Hrk].
      assert (Hms : str_mem h (seen_keys hc (length row)) = true \/ dget str_eqb (cells_dict sc (combine hc row) []) h <> None).
      { destruct (str_mem h (seen_keys hc (length row))) eqn:E1; [left; reflexivity|]. right. intros E2.
        assert (X : In (MissingCell line (S j') h) (missing_cells line hc row (cells_dict sc (combine hc row) []))).
        { unfold missing_cells. apply in_flat_map. exists (h, j'). split; [exact Hrk|]. cbn [fst snd]. rewrite E1, E2. left. reflexivity. }
        rewrite Q2 in X. destruct X. }
      destruct Hms as [Hms|Hms].
      - apply str_mem_In in Hms. apply in_flat_map in Hms. destruct Hms as ([k [c2|]] & Hi & Hk); [|destruct Hk]. destruct Hk as [Hk|[]]. cbn in Hk. subst k.
        apply in_firstn in Hi. destruct Hi as (i & Hi & Ei). assert (Some c2 = Some c).
        { eapply (header_cols_functional cols hdr hc Hreg Hdist Hhc h); eapply nth_error_In; eassumption. }
        destruct (nth_error row i) as [v|] eqn:Evi; [|apply nth_error_None in Evi; lia].
        exists ((h, Some c2), v). split; [eapply nth_error_In; apply nth_error_combine; eassumption|]. unfold pkey, entry_key. cbn. congruence.
      - destruct (cells_dict_keys sc (combine hc row) [] h Hms) as [X|([k oc] & v & Hi & Ek)]; [exfalso; exact (X eq_refl)|].
        exists ((k, oc), v). split; [exact Hi|]. unfold pkey. cbn [fst]. rewrite Ek. symmetry.
        apply In_nth_error in Hi. destruct Hi as [i Hi]. apply nth_error_combine_inv in Hi. destruct Hi as [Hi _]. apply nth_error_In in Hi.
        destruct oc as [c2|]; cbn in Ek.
        + apply C3. rewrite <- Ek. apply in_map. apply (M2 _ _ Hi).
        + exfalso. subst k. apply (M3 _ Hi c Hc). exact C2. }
    destruct (cells_dict_notnone (combine hc row) (tc_header c) []) as (x & Hx & Hx').
    - intros [[k oc] v] Hp Ek. unfold pkey, entry_key in Ek. cbn in Ek.
      assert (Hi : In (k, oc) hc) by (eapply in_combine_l; exact Hp). destruct oc as [c2|].
      + assert (c2 = c) by (eapply nodup_header_eq; [exact Hdist|apply (M2 _ _ Hi)|exact Hc|exact Ek]). subst c2.
        destruct (R1 _ _ _ Hp) as [x Hx]. exists x. split; [exact Hx|]. intros ->.
        destruct (col_read sc true (tc_st c) v) as [r w] eqn:Er. cbn in Hx. subst r. eapply required_never_none; eassumption.
      + exists (POne (s_str sc v)). split; [reflexivity|discriminate].
    - left. exact Hkey.
    - rewrite Hx in Hnone. congruence. }
  unfold iterdicts in Hin. destruct (reader_with_line_number lim (Some dl) kw0 file) as [[rows endr]|]; [|destruct Hin].
  destruct (d_header dl).
  - destruct rows as [|[l hdr] rows]; [destruct Hin|]. destruct hdr as [|a hdr].
    + (* an empty header row *) exfalso. unfold iter_data in Hin. destruct (header_cols true cols []) as [hc|] eqn:Hhc; [|destruct Hin].
      destruct (missing_required cols hc) eqn:E; [destruct Hin|]. apply missing_required_iff in E.
      destruct (header_cols_strict cols [] Hreg Htit) as (hc0 & Hhc0 & Hm). rewrite Hhc in Hhc0. injection Hhc0 as <-.
      destruct Hm as (M1 & _). apply map_eq_nil in M1. subst hc. destruct (E c Hc Hq) as (h & c' & [] & _).
    + eapply G; [|exact Hin]. left. discriminate.
  - eapply G; [|exact Hin]. right. reflexivity.
Qed.
End P.
