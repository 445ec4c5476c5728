(** Values in the rows of tables (C65). *)
From Verif Require Import PyStr PyCsv Json Dsv DsvProofs4 Column Schema Table TableProofs TableProofs2 TableProofs3 TableProofs4 GroupProofs5 Csv2jsonProofs Zip Files FrictionlessProofs2.

Section P.
Context {V : Type} (sc : scalars V) (expand : pystr -> dict V -> res pystr).
Variable cols : list (tcol V).
Hypothesis (Nd : NoDup (map tc_header cols)) (Named : forall c n, In c cols -> tc_header c <> col_n (Some n)).

Definition typed (c : tcol V) (v : pyval V) : Prop :=
  v = PNone \/ (exists t, fst (col_read sc true (tc_st c) t) = Ok v) \/ (tc_virtual c = true /\ exists s, v = POne (s_str sc s)).
Definition tdict (d : dict V) : Prop := forall c v, In c cols -> dget str_eqb d (tc_header c) = Some v -> typed c v.
Lemma header_inj c c' : In c cols -> In c' cols -> tc_header c = tc_header c' -> c = c'.
Proof.
  intros I I' E. clear Named. revert I I'. induction cols as [|x l IH]; intros [] []; inversion Nd; subst.
  - congruence.
  - exfalso. apply H3. rewrite E. apply in_map. assumption.
  - exfalso. apply H3. rewrite <- E. apply in_map. assumption.
  - apply IH; assumption.
Qed.
Lemma tdict_dset d c v : tdict d -> In c cols -> typed c v -> tdict (dset str_eqb d (tc_header c) v).
Proof.
  intros T Ic Tv c' v' Ic' G. destruct (str_eq_dec (tc_header c') (tc_header c)) as [E|Ne].
  - rewrite E, dget_dset_same in G. injection G as <-. rewrite (header_inj c' c Ic' Ic E). exact Tv.
  - rewrite dget_dset_other in G by exact Ne. apply (T c' v' Ic' G).
Qed.
Lemma tdict_other d k v : tdict d -> (forall c, In c cols -> tc_header c <> k) -> tdict (dset str_eqb d k v).
Proof. intros T Nk c v' Ic G. rewrite dget_dset_other in G by (apply Nk, Ic). apply (T c v' Ic G). Qed.

Definition good_col (e : pystr * option (tcol V)) : Prop :=
  match snd e with
  | Some c => In c cols \/ exists n, tc_header c = col_n (Some n)
  | None => forall c, In c cols -> tc_header c <> fst e
  end.
Lemma cells_typed log line hc : Forall good_col hc -> forall row j d, tdict d -> tdict (ro_dict (read_cells sc true log line j hc row d)).
Proof.
  intros G. induction G as [|[k oc] hc Gc G IH]; intros row j d Td; [destruct row; exact Td|]. destruct oc as [c|].
  - destruct row as [|v row]; [exact Td|]. cbn [read_cells]. destruct (fst (col_read sc true (tc_st c) v)) as [x|e] eqn:E.
    + cbn [ro_push ro_dict]. apply IH. destruct Gc as [I|(n & En)]; [apply tdict_dset; [exact Td|exact I|]; right; left; exists v; exact E|]. rewrite En. apply tdict_other; [exact Td|]. intros c' I'. apply Named, I'.
    + destruct e; try exact Td. destruct log; [cbn [ro_push ro_dict]; apply IH, Td|exact Td].
  - destruct row as [|v row]; [exact Td|]. cbn [read_cells ro_push ro_dict]. apply IH, tdict_other; [exact Td|exact Gc].
Qed.
Lemma tdict_default ks d : tdict d -> tdict (setdefault_all d ks).
Proof.
  intros T c v I G. rewrite setdefault_get in G. destruct (dget str_eqb d (tc_header c)) eqn:E; [injection G as <-; apply (T c _ I E)|]. destruct (str_mem _ _); [injection G as <-; left; reflexivity|discriminate G].
Qed.
Lemma virtual_in k u : In (k, u) (virtualcols cols) -> exists c, In c cols /\ tc_header c = k /\ tc_virtual c = true.
Proof.
  unfold virtualcols. intros I. apply in_flat_map in I. destruct I as (c & Ic & I). destruct (tc_virtual c) eqn:Ev; [|destruct I]. destruct (de_valueUrl _); [|destruct I]. destruct I as [E|[]]. injection E as <- _.
  exists c. repeat split; assumption.
Qed.
Lemma virtual_typed vs : (forall k u, In (k, u) vs -> exists c, In c cols /\ tc_header c = k /\ tc_virtual c = true) -> forall d d', tdict d -> add_virtual sc expand d vs = Ok d' -> tdict d'.
Proof.
  induction vs as [|[k u] vs IH]; intros Hv d d' Td H; cbn [add_virtual] in H; [apply Ok_inj in H; subst; exact Td|]. apply bind_inv in H. destruct H as (s & _ & H).
  apply (IH (fun k u I => Hv k u (or_intror I)) (dset str_eqb d k (POne (s_str sc s))) d'); [|exact H]. destruct (Hv k u (or_introl eq_refl)) as (c & Ic & <- & Ev).
  apply tdict_dset; [exact Td|exact Ic|]. right. right. split; [exact Ev|]. exists s. reflexivity.
Qed.
Lemma process_typed log line hc row : Forall good_col hc -> ro_exn (process_row sc expand true log cols line hc row) = None -> tdict (ro_dict (process_row sc expand true log cols line hc row)).
Proof.
  intros G H. apply process_dict in H. destruct H as (_ & H & _). eapply virtual_typed; [|apply tdict_default|exact H]; [intros k u; apply virtual_in|]. apply (cells_typed log line hc G row 0 []). intros c v _ X. discriminate X.
Qed.
Lemma ensure_good hc row : Forall good_col hc -> Forall good_col (ensure_cols hc row).
Proof.
  intros G. unfold ensure_cols. destruct hc; [|exact G]. apply Forall_forall. intros e I. apply in_map_iff in I. destruct I as (i & <- & _). unfold good_col. cbn [snd]. right. exists (S i). reflexivity.
Qed.
Lemma iter_typed log endr rows : forall hc, Forall good_col hc -> Forall (fun lr => tdict (snd lr)) (io_rows (iter_rows sc expand true log cols hc rows endr)).
Proof.
  induction rows as [|[ln row] rows IH]; intros hc G; cbn [iter_rows]; [constructor|]. pose proof (ensure_good hc row G) as G'. pose proof (process_typed log ln (ensure_cols hc row) row G') as HL.
  destruct (ro_exn (process_row sc expand true log cols ln (ensure_cols hc row) row)); [constructor|]. cbn [io_cons io_rows]. destruct (ro_msgs _); [constructor; [apply HL; reflexivity|]|]; apply IH, G'.
Qed.
Lemma header_good hdr hc : header_cols true cols hdr = Ok hc -> Forall good_col hc.
Proof.
  intros H. unfold header_cols in H. apply Forall_forall. intros e I.
  destruct (_ || _).
  - injection H as <-. destruct e as [h oc]. apply in_combine_r in I. apply in_map_iff in I. destruct I as (c' & <- & I). left. exact I.
  - cbn [negb andb] in H. revert hc H e I. induction hdr as [|h hdr IH]; intros hc H e I; cbn [mapM] in H; [apply Ok_inj in H; subst; destruct I|].
    apply bind_inv in H. destruct H as (x & Ex & H). apply bind_inv in H. destruct H as (hc' & Eh & H). apply Ok_inj in H. subst hc. destruct I as [<-|I]; [|apply (IH hc' Eh e I)].
    apply bind_inv in Ex. destruct Ex as (oc & Eg & Ex). apply Ok_inj in Ex. subst x. apply get_column_spec in Eg. unfold good_col. cbn [fst snd]. destruct oc as [c|]; [left; apply Eg|].
    intros c Ic E. apply (Eg c Ic). left. symmetry. exact E.
Qed.
(** rows read with [true]: typed, and no two values have the same key *)
Definition good_rows (o : @iterout V) : Prop := Forall (fun lr => tdict (snd lr) /\ NoDup (map fst (snd lr))) (io_rows o).
Lemma data_good hdr ws rows endr : good_rows (iter_data sc expand true false cols hdr ws rows endr).
Proof.
  unfold good_rows, iter_data. destruct (header_cols true cols hdr) as [hc|] eqn:Eh; [|constructor]. destruct (missing_required cols hc); [constructor|]. cbn [io_rows].
  pose proof (iter_typed false endr rows hc (header_good _ _ Eh)) as A. pose proof (iter_nodup sc expand true false cols rows endr hc) as B.
  rewrite Forall_forall in *. intros x I. split; [apply A, I|apply B, I].
Qed.
Lemma iterdicts_good lim d lang file : good_rows (iterdicts sc expand lim d lang true false cols file).
Proof.
  unfold iterdicts. destruct (reader_with_line_number _ _ _ _) as [[rows endr]|]; [|constructor]. destruct (d_header d); [destruct rows as [|[l hdr] rows]; [constructor|]|]; apply data_good.
Qed.
Lemma reader_good d lang r : good_rows (iter_reader sc expand d lang true false cols r).
Proof.
  unfold iter_reader. destruct r as [[rows endr]|]; [|constructor]. destruct (d_header d); [destruct rows as [|[l hdr] rows]; [constructor|]|]; apply data_good.
Qed.
End P.
Lemma table_good {V} (sc : scalars V) expand env lim g fs (t : ftable V) : NoDup (map tc_header (t_cols t)) -> (forall c n, In c (t_cols t) -> tc_header c <> col_n (Some n)) ->
  good_rows sc (t_cols t) (table_iter sc expand env lim g fs t).
Proof.
  intros Nd Nm. unfold table_iter. destruct (resolve _ _ _) as [u|p].
  - destruct (fe_get env u); [apply reader_good; assumption|constructor].
  - unfold iter_file. destruct (fs p) as [[]|]; try constructor; [apply iterdicts_good; assumption|]. destruct (fs (zip_path p)) as [[]|]; try constructor. destruct (filter _ _); [constructor|apply reader_good; assumption].
Qed.
