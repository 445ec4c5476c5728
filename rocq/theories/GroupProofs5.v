(** keys_usable for tables read from files. *)
From Verif Require Import PyStr Dsv DsvSpec DsvProofs4 Column Schema Table TableSpec TableProofs TableProofs2 TableProofs3 TableProofs4 TableProofs5 TableProofs6 Group GroupSpec.

Section P.
Context {V : Type} (sc : scalars V) (expand : pystr -> dict V -> res pystr).

Definition plain (k : pystr) (hc : list (pystr * option (tcol V))) : Prop :=
  forall h c, In (h, Some c) hc -> tc_header c = k -> st_separator (tc_st c) = None.
Definition listless (k : pystr) (d : dict V) : Prop := forall l, dget str_eqb d k <> Some (PList l).
Lemma listless_dset k (d : dict V) k' v : listless k d -> (k' = k -> forall l, v <> PList l) -> listless k (dset str_eqb d k' v).
Proof.
  intros H Hv l. destruct (str_eq_dec k' k) as [->|Hn].
  - rewrite dget_dset_same. intros X. injection X as X. exact (Hv eq_refl l X).
  - rewrite dget_dset_other; [apply H|]. congruence.
Qed.
Lemma read_plain strict st v x : st_separator st = None -> fst (col_read sc strict st v) = Ok x -> forall l, x <> PList l.
Proof.
  unfold col_read. intros Hs. rewrite Hs. destruct (st_required st && _); [discriminate|]. cbn.
  destruct (read_elem sc (st_datatype st) _) as [[y|]|]; cbn; intros H l; try discriminate; injection H as <-; discriminate.
Qed.
Lemma read_cells_listless k strict log line hc : plain k hc -> forall row j d, listless k d ->
  listless k (ro_dict (read_cells sc strict log line j hc row d)).
Proof.
  intros Hp. induction hc as [|[h [c|]] hc IH]; intros row j d Hd; [exact Hd| |].
  - destruct row as [|v row]; [exact Hd|]. cbn [read_cells].
    assert (Hp' : plain k hc) by (intros h' c' X; apply (Hp h' c'); right; exact X). specialize (IH Hp').
    assert (Hx : forall x, fst (col_read sc strict (tc_st c) v) = Ok x -> listless k (dset str_eqb d (tc_header c) x)).
    { intros x Hx. apply listless_dset; [exact Hd|]. intros E. eapply read_plain; [|exact Hx]. apply (Hp h c); [left; reflexivity|exact E]. }
    destruct (fst (col_read sc strict (tc_st c) v)) as [x|e]; [cbn; apply IH; apply Hx; reflexivity|].
    destruct e; try exact Hd. destruct strict; [destruct log; [cbn; apply IH; exact Hd|exact Hd]|]. cbn. apply IH. apply listless_dset; [exact Hd|]. intros _ l. discriminate.
  - destruct row as [|v row]; [exact Hd|]. cbn. apply IH; [intros h' c' X; apply (Hp h' c'); right; exact X|]. apply listless_dset; [exact Hd|]. intros _ l. discriminate.
Qed.
Lemma add_virtual_listless k vs : forall (d d' : dict V), add_virtual sc expand d vs = Ok d' -> listless k d -> listless k d'.
Proof.
  induction vs as [|[a u] vs IH]; intros d d' H Hd; cbn in H; [injection H as <-; exact Hd|]. destruct (expand u d) as [s|]; [|discriminate]. cbn in H.
  eapply IH; [exact H|]. apply listless_dset; [exact Hd|]. intros _ l. discriminate.
Qed.
Lemma process_listless k strict log cols line hc row : plain k hc -> ro_exn (process_row sc expand strict log cols line hc row) = None ->
  listless k (ro_dict (process_row sc expand strict log cols line hc row)).
Proof.
  intros Hp H. apply process_dict in H. destruct H as (_ & H & _). eapply add_virtual_listless; [exact H|]. intros l. rewrite setdefault_get.
  assert (G : listless k (ro_dict (read_cells sc strict log line 0 hc row []))) by (apply read_cells_listless; [exact Hp|]; intros l'; discriminate).
  specialize (G l). destruct (dget str_eqb _ k); [exact G|]. destruct (str_mem k (colnames cols)); discriminate.
Qed.
Lemma plain_ensure k hc row : plain k hc -> plain k (ensure_cols hc row).
Proof.
  intros H. unfold ensure_cols. destruct hc; [|exact H]. intros h c X _. apply in_map_iff in X. destruct X as (i & E & _). injection E as _ <-. reflexivity.
Qed.
Lemma iter_listless k strict log cols endr rows : forall hc, plain k hc -> forall line d, In (line, d) (io_rows (iter_rows sc expand strict log cols hc rows endr)) -> listless k d.
Proof.
  induction rows as [|[ln row] rows IH]; intros hc Hp line d H; cbn [iter_rows] in H; [destruct H|].
  pose proof (plain_ensure k hc row Hp) as Hp'. pose proof (process_listless k strict log cols ln (ensure_cols hc row) row Hp') as HL.
  destruct (ro_exn (process_row sc expand strict log cols ln (ensure_cols hc row) row)); [destruct H|]. cbn [io_cons io_rows] in H. specialize (IH _ Hp' line d).
  destruct (ro_msgs _); [|apply IH; exact H]. destruct H as [H|H]; [injection H as _ <-; apply HL; reflexivity|apply IH; exact H].
Qed.
Lemma header_plain k strict (cols : list (tcol V)) hdr hc : (forall c, In c cols -> tc_header c = k -> st_separator (tc_st c) = None) -> header_cols strict cols hdr = Ok hc -> plain k hc.
Proof.
  intros Hc H. assert (Hcomb : plain k (combine hdr (map Some cols))).
  { intros h c X. apply in_combine_r in X. apply in_map_iff in X. destruct X as (c' & E & X). injection E as <-. apply Hc. exact X. }
  unfold header_cols in H. destruct (_ || _); [injection H as <-; exact Hcomb|]. destruct (_ && _ && _).
  - injection H as <-. intros h c X. apply in_app_or in X. destruct X as [X|X]; [apply (Hcomb h c X)|]. apply in_map_iff in X. destruct X as (i & E & _). injection E as _ <-. reflexivity.
  - intros h c X. apply mapM_Ok_iff in H. apply In_nth_error in X. destruct X as [i Hi].
    assert (G : exists h0, nth_error hdr i = Some h0 /\ (c <- get_column cols h0;; Ok (h0, c)) = Ok (h, Some c)).
    { clear Hcomb. revert i Hi. induction H as [|a b l l' H1 H2 IH]; intros [|i] Hi; cbn in Hi; try discriminate; [injection Hi as ->; exists a; auto|]. apply IH. exact Hi. }
    destruct G as (h0 & _ & G). destruct (get_column cols h0) as [oc|] eqn:Eg; [|discriminate]. cbn in G. injection G as _ ->. apply get_column_spec in Eg. apply Hc. apply Eg.
Qed.
Lemma iterdicts_listless k lim dl lang strict log (cols : list (tcol V)) file line d :
  (forall c, In c cols -> tc_header c = k -> st_separator (tc_st c) = None) ->
  In (line, d) (io_rows (iterdicts sc expand lim dl lang strict log cols file)) -> listless k d.
Proof.
  intros Hc Hin.
  assert (G : forall hdr ws rows endr, In (line, d) (io_rows (iter_data sc expand strict log cols hdr ws rows endr)) -> listless k d).
  { intros hdr ws rows endr H. unfold iter_data in H. destruct (header_cols strict cols hdr) as [hc|] eqn:Eh; [|destruct H].
    destruct (missing_required cols hc); [destruct H|]. cbn [io_rows] in H. eapply iter_listless; [|exact H]. eapply header_plain; eassumption. }
  unfold iterdicts in Hin. destruct (reader_with_line_number lim (Some dl) kw0 file) as [[rows endr]|]; [|destruct Hin].
  destruct (d_header dl); [|eapply G; exact Hin]. destruct rows as [|[l hdr] rows]; [destruct Hin|]. eapply G; exact Hin.
Qed.
End P.

Section Q.
Context {V : Type}.
Notation gtable := (@gtable V).
Lemma file_keys (t : gtable) log ks : from_file t -> names_columns t ks -> forall line d, In (line, d) (rows_of log t) ->
  exists vals, has_keys ks d vals /\ (no_separators t ks -> no_lists vals).
Proof.
  intros (sc & expand & lim & dl & lang & file & E) Hn line d Hd.
  assert (Hrows : rows_of log t = io_rows (iterdicts sc expand lim dl lang true log (g_cols t) file)) by (rewrite E; reflexivity).
  rewrite Hrows in Hd. clear E Hrows.
  induction ks as [|k ks IH]; [exists []; split; [constructor|intros _ l []]|].
  destruct IH as (vals & Hv & Hl); [intros k' Hk'; apply Hn; right; exact Hk'|].
  destruct (Hn k (or_introl eq_refl)) as (c & Hc & Hvirt & Eh).
  pose proof (all_keys sc expand lim dl lang true log (g_cols t) file line d c Hd Hc Hvirt) as Hk. unfold has_key in Hk. rewrite Eh in Hk.
  destruct (dget str_eqb d k) as [v|] eqn:Ev; [|congruence]. exists (v :: vals). split; [constructor; assumption|].
  intros Hs l [X|X].
  - subst v. refine (iterdicts_listless sc expand k lim dl lang true log (g_cols t) file line d _ Hd l Ev). intros c' Hc' E'. apply (Hs k c'); [left; reflexivity|exact Hc'|exact E'].
  - apply (Hl (fun k' c' Hk' => Hs k' c' (or_intror Hk')) l X).
Qed.
Theorem files_usable log (ts : list gtable) :
  (forall t, In t ts -> from_file t) ->
  (forall child fk target, refers_to ts child fk target ->
     fk_refcols fk <> [] /\ names_columns target (fk_refcols fk) /\ no_separators target (fk_refcols fk)
     /\ names_columns child (fk_cols fk) /\ (length (fk_cols fk) = 1%nat \/ no_separators child (fk_cols fk))) ->
  keys_usable log ts.
Proof.
  intros Hf H child fk target Hr. destruct (H child fk target Hr) as (H1 & H2 & H3 & H4 & H5). destruct Hr as (Hc & _ & _ & r & _ & pre & post & Ets & _).
  assert (Ht : In target ts) by (rewrite Ets; apply in_elt). split; [exact H1|]. split.
  - intros line d Hd. destruct (file_keys target log (fk_refcols fk) (Hf _ Ht) H2 line d Hd) as (vals & Hv & Hl). exists vals. auto.
  - intros line d Hd. destruct (file_keys child log (fk_cols fk) (Hf _ Hc) H4 line d Hd) as (vals & Hv & Hl). exists vals. split; [exact Hv|]. destruct H5 as [H5|H5]; auto.
Qed.
End Q.
