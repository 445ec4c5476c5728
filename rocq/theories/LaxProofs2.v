(** Lenient reading: tables. *)
From Verif Require Import PyStr PyCsv Dsv DsvSpec DsvProofs4 Json Dec NatLang Column ColumnSpec ColumnProofs Schema Table TableSpec TableProofs TableProofs2 TableProofs3 QuietSpec QuietProofs JsonldProofs FrameProofs Csv2jsonProofs LaxSpec LaxProofs.
From Coq Require Import Lia.

Section Tables.
Context {V : Type} (sc : scalars V) (expand : pystr -> dict V -> res pystr).
Hypothesis Tx : forall u d, exists s, expand u d = Ok s.
Notation hcs := (list (pystr * option (tcol V))).

(** *** with columns *)
(** the columns of the cells under n headers *)
Definition all_cols (cols : list (tcol V)) (n : nat) : list (tcol V) := firstn n cols ++ map (fun i => anon_col (S i)) (seq (length cols) (n - length cols)).
Lemma header_cols_all (cols : list (tcol V)) hdr : cols <> [] -> exists hc, header_cols false cols hdr = Ok hc /\ map snd hc = map Some (all_cols cols (length hdr))
  /\ (forall j h, (j < length cols)%nat -> nth_error hdr j = Some h <-> exists c, nth_error hc j = Some (h, c)).
Proof.
  intros NE. unfold header_cols, all_cols.
  destruct (Nat.leb_spec (length hdr) (length cols)) as [L|L].
  - rewrite orb_true_r. eexists. split; [reflexivity|]. replace (length hdr - length cols)%nat with 0%nat by lia. cbn [seq map]. rewrite app_nil_r. split.
    + clear NE. revert cols L. induction hdr as [|h hdr IH]; intros [|c cols] L; cbn [combine map firstn length] in *; try reflexivity; try lia. f_equal. apply IH. lia.
    + intros j h Hj. split.
      * intros H. destruct (nth_error cols j) as [c|] eqn:E; [|apply nth_error_None in E; lia]. exists (Some c). apply nth_error_combine; [exact H|]. rewrite nth_error_map, E. reflexivity.
      * intros (c & H). apply nth_error_combine_inv in H. tauto.
  - destruct (list_eq_dec str_eq_dec hdr (colnames cols)) as [->|_]; [pose proof (colnames_short cols); lia|].
    destruct cols as [|c0 cols0] eqn:Ec; [contradiction|]. rewrite <- Ec in *. cbn [orb negb andb]. replace (negb match cols with [] => true | _ => false end) with true by (rewrite Ec; reflexivity). rewrite (proj2 (Nat.ltb_lt _ _) L). cbn [andb].
    eexists. split; [reflexivity|]. split.
    + rewrite !map_app, !map_map. cbn [snd]. rewrite firstn_all2 by lia. f_equal. clear -L. revert cols L. induction hdr as [|h hdr IH]; intros [|c cols] L; cbn [combine map length] in *; try reflexivity; try lia. f_equal. apply IH. lia.
    + intros j h Hj. rewrite nth_error_app1 by (rewrite combine_length, map_length; lia). split.
      * intros H. destruct (nth_error cols j) as [c|] eqn:E; [|apply nth_error_None in E; lia]. exists (Some c). apply nth_error_combine; [exact H|]. rewrite nth_error_map, E. reflexivity.
      * intros (c & H). apply nth_error_combine_inv in H. tauto.
Qed.
Lemma all_keys_eq cols n (hc : hcs) : map snd hc = map Some (all_cols cols n) -> map key_of hc = cell_keys cols n.
Proof.
  intros H. unfold cell_keys. rewrite firstn_map. change (map (fun i => number_name (S i))) with (map (fun i => tc_header (anon_col (V:=V) (S i)))). rewrite <- (map_map (fun i => anon_col (V:=V) (S i)) tc_header), <- map_app. fold (all_cols cols n).
  revert H. generalize (all_cols cols n) as l. induction hc as [|[k c] hc IH]; intros [|x l] H; cbn [map snd] in *; try discriminate; [reflexivity|]. injection H as -> H. rewrite (IH l H). reflexivity.
Qed.
Lemma all_nth cols n j c : nth_error (all_cols cols n) j = Some c -> nth_error cols j = Some c \/ (nth_error cols j = None /\ c = anon_col (S j)).
Proof.
  unfold all_cols. intros H. destruct (Nat.lt_ge_cases j (length (firstn n cols))) as [L|L].
  - rewrite nth_error_app1 in H by exact L. left. rewrite <- (firstn_skipn n cols). rewrite nth_error_app1 by exact L. exact H.
  - rewrite nth_error_app2 in H by exact L. rewrite firstn_length in *. rewrite nth_error_map in H. destruct (Nat.le_gt_cases n (length cols)) as [Ln|Ln].
    + replace (n - length cols)%nat with 0%nat in H by lia. destruct (j - _)%nat; discriminate H.
    + right. replace (Nat.min n (length cols)) with (length cols) in * by lia. split; [apply nth_error_None; exact L|].
      destruct (Nat.lt_ge_cases (j - length cols) (n - length cols)) as [Lj|Lj]; [rewrite nth_error_seq in H by exact Lj; cbn in H; injection H as <-; f_equal; lia|].
      rewrite (proj2 (nth_error_None _ _)) in H by (rewrite seq_length; exact Lj). discriminate H.
Qed.
Lemma hc_at cols n (hc : hcs) : map snd hc = map Some (all_cols cols n) -> forall j k oc, nth_error hc j = Some (k, oc) -> exists c, oc = Some c /\ nth_error (all_cols cols n) j = Some c.
Proof.
  intros H j k oc Hj. apply (map_nth_error snd) in Hj. rewrite H, nth_error_map in Hj. destruct (nth_error (all_cols cols n) j) as [c|]; [|discriminate Hj]. cbn in Hj. injection Hj as <-. exists c. auto.
Qed.
Lemma virtual_templates (cols : list (tcol V)) : templates cols (virtualcols cols).
Proof.
  unfold templates. induction cols as [|c cols (l & S & F)]; [exists []; split; constructor|].
  unfold virtualcols. cbn [flat_map]. fold (virtualcols cols). destruct (tc_virtual c) eqn:Ev.
  - destruct (de_valueUrl (c_desc (tc_col c))) as [u|] eqn:Eu.
    + exists (c :: l). split; [constructor; [split; [exact Ev|congruence]|exact S]|]. constructor; [auto|exact F].
    + exists l. split; [apply Sel_out; [intros [_ H]; contradiction|exact S]|exact F].
  - exists l. split; [apply Sel_out; [intros [H _]; congruence|exact S]|exact F].
Qed.
Lemma templates_cols (cols : list (tcol V)) k : In k (map fst (virtualcols cols)) -> exists c, In c cols /\ tc_virtual c = true /\ de_valueUrl (c_desc (tc_col c)) <> None /\ tc_header c = k.
Proof.
  intros H. apply in_map_iff in H. destruct H as ([k' u] & <- & H). unfold virtualcols in H. apply in_flat_map in H. destruct H as (c & Hc & H). exists c. destruct (tc_virtual c); [|destruct H]. destruct (de_valueUrl _) as [u'|]; [|destruct H]. destruct H as [H|[]]. injection H as <- <-. repeat split; [exact Hc|discriminate].
Qed.
Lemma virtual_nodup (cols : list (tcol V)) : NoDup (map tc_header cols) -> NoDup (map fst (virtualcols cols)).
Proof.
  induction cols as [|c cols IH]; intros H; [constructor|]. unfold virtualcols. cbn [flat_map]. fold (virtualcols cols). apply NoDup_cons_iff in H. destruct H as [H1 H2]. specialize (IH H2).
  destruct (tc_virtual c); [|exact IH]. destruct (de_valueUrl _); [|exact IH]. cbn [app map fst]. constructor; [|exact IH]. intros K. apply templates_cols in K. destruct K as (c' & K1 & _ & _ & K2). apply H1. rewrite <- K2. apply in_map. exact K1.
Qed.
Lemma absent_selected (cells : list (pystr * pyval V)) (cols : list (tcol V)) :
  Selected (fun kx => ~ In (fst kx) (map fst cells)) (map (fun c => (tc_header c, PNone)) (filter (fun c => negb (tc_virtual c)) cols)) (absent cells (colnames cols)).
Proof.
  unfold absent, colnames, regular. induction (filter _ cols) as [|c l IH]; [constructor|]. cbn [map filter]. destruct (str_mem (tc_header c) (map fst cells)) eqn:E; cbn [negb map].
  - apply Sel_out; [|exact IH]. cbn [fst]. apply str_mem_In in E. tauto.
  - apply Sel_in; [|exact IH]. cbn [fst]. apply str_mem_false in E. exact E.
Qed.
Lemma firstn_In {A} n (l : list A) x : In x (firstn n l) -> In x l.
Proof. intros H. rewrite <- (firstn_skipn n l). apply in_or_app. left. exact H. Qed.
Lemma Forall2_impl_in {A B} (R S : A -> B -> Prop) l m : (forall a b, In a l -> R a b -> S a b) -> Forall2 R l m -> Forall2 S l m.
Proof. intros H F. induction F as [|a b l m X F IH]; constructor; [apply H; [left; reflexivity|exact X]|]. apply IH. intros a' b' Ha. apply H. right. exact Ha. Qed.

Theorem lenient_rows lim dl lang (cols : list (tcol V)) file rows hdr data :
  (forall c, In c cols -> st_separator (tc_st c) <> Some []) -> cols <> [] ->
  reader_with_line_number lim (Some dl) kw0 file = Ok (rows, None) -> header_and_data dl cols rows hdr data -> hdr <> [] ->
  NoDup (map tc_header cols ++ map (fun i => number_name (S i)) (seq (length cols) (length hdr - length cols))) ->
  (forall j c, (j < length hdr)%nat -> nth_error cols j = Some c -> tc_virtual c = true -> de_valueUrl (c_desc (tc_col c)) = None) ->
  required_given cols hdr -> (forall line row, In (line, row) data -> row_complete cols hdr row /\ fails_well sc cols row) ->
  let out := iterdicts sc expand lim dl lang false false cols file in
  io_end out = None /\ Forall2 (fun lr ld => fst lr = fst ld /\ row_lenient sc expand cols (length hdr) (snd lr) (snd ld)) data (io_rows out).
Proof.
  intros Sep NE Rd HD Nh ND Nv Rg Rows. cbn zeta.
  apply NoDup_app_inv in ND. destruct ND as (ND1 & ND2 & ND3).
  destruct (header_cols_all cols hdr NE) as (hc & Hc & Hs & Hn).
  assert (NEhc : hc <> []).
  { intros ->. destruct hdr as [|h hdr]; [contradiction|]. destruct cols as [|c cols]; [contradiction|]. destruct (proj1 (Hn 0%nat h ltac:(cbn; lia)) eq_refl) as (x & X). discriminate X. }
  pose proof (all_keys_eq cols (length hdr) hc Hs) as Hk.
  assert (Own : forall j k c c0, nth_error hc j = Some (k, Some c) -> nth_error cols j = Some c0 -> c = c0 /\ nth_error hdr j = Some k).
  { intros j k c c0 H1 H2. destruct (hc_at cols (length hdr) hc Hs j k _ H1) as (c1 & E & H3). injection E as <-. destruct (all_nth _ _ _ _ H3) as [H4|[H4 _]]; [|congruence]. split; [congruence|]. apply Hn; [apply nth_error_Some; congruence|]. exists (Some c). exact H1. }
  assert (Miss : missing_required cols hc = false).
  { apply missing_required_iff. intros c Hin R. destruct (Rg c Hin R) as (j & c' & Hj & Hc' & Hh). destruct (nth_error hdr j) as [h|] eqn:E; [|apply nth_error_None in E; lia].
    assert (Lj : (j < length cols)%nat) by (apply nth_error_Some; congruence).
    destruct (proj1 (Hn j h Lj) E) as (oc & Ho). destruct (hc_at cols (length hdr) hc Hs j h _ Ho) as (c1 & -> & _). destruct (Own j h c1 c' Ho Hc') as [-> _]. exists h, c'. split; [eapply nth_error_In; exact Ho|exact Hh]. }
  assert (Data : exists ws, iterdicts sc expand lim dl lang false false cols file = iter_data sc expand false false cols hdr ws data None).
  { unfold iterdicts. rewrite Rd. unfold header_and_data in HD. destruct (d_header dl); [destruct HD as [l ->]; eexists; reflexivity|destruct HD as [-> ->]; eexists; reflexivity]. }
  destruct Data as [ws ->]. unfold iter_data. rewrite Hc, Miss. cbn [io_end io_rows].
  assert (Nk : NoDup (map key_of hc)).
  { rewrite Hk. unfold cell_keys. apply NoDup_app2; [apply firstn_nodup; exact ND1|exact ND2|]. intros x Hx. apply ND3. exact (firstn_In _ _ _ Hx). }
  assert (Nc : NoDup (colnames cols)).
  { unfold colnames, regular. clear -ND1. induction cols as [|c cols IH]; [constructor|]. cbn [map] in ND1. apply NoDup_cons_iff in ND1. destruct ND1 as [H1 H2]. specialize (IH H2). cbn [filter]. destruct (negb _); [|exact IH]. cbn [map]. constructor; [|exact IH]. intros K. apply H1. apply in_map_iff in K. destruct K as (c' & K1 & K2). apply filter_In in K2. rewrite <- K1. apply in_map. tauto. }
  assert (Nvk : forall k, In k (map fst (virtualcols cols)) -> ~ In k (map key_of hc) /\ ~ In k (colnames cols)).
  { intros k Hkv. apply templates_cols in Hkv. destruct Hkv as (c & Hin & Hv & Hu & <-). apply In_nth_error in Hin. destruct Hin as (j & Hj). split.
    - rewrite Hk. unfold cell_keys. intros K. apply in_app_or in K. destruct K as [K|K].
      + rewrite firstn_map in K. apply in_map_iff in K. destruct K as (c' & E & K). apply in_firstn in K. destruct K as (i & Hi & K).
        assert (i = j). { apply (nodup_nth (map tc_header cols) i j (tc_header c)); [exact ND1| |]; rewrite nth_error_map. - rewrite K. cbn. rewrite E. reflexivity. - rewrite Hj. reflexivity. }
        subst i. rewrite K in Hj. injection Hj as ->. exact (Hu (Nv j c Hi K Hv)).
      + apply (ND3 (tc_header c)); [apply in_map; exact (nth_error_In _ _ Hj)|exact K].
    - intros K. unfold colnames, regular in K. apply in_map_iff in K. destruct K as (c' & E & K). apply filter_In in K. destruct K as [K Kv]. apply In_nth_error in K. destruct K as (i & K).
      assert (i = j). { apply (nodup_nth (map tc_header cols) i j (tc_header c)); [exact ND1| |]; rewrite nth_error_map. - rewrite K. cbn. rewrite E. reflexivity. - rewrite Hj. reflexivity. }
      subst i. rewrite K in Hj. injection Hj as ->. rewrite Hv in Kv. discriminate Kv. }
  destruct (iter_dicts_lax sc expand cols hc data Tx NEhc Nk Nc Nvk (virtual_nodup cols ND1)) as [E F].
  { intros line row Hin. destruct (Rows line row Hin) as [C W]. split.
    - intros j k c v e Hj Hv Er. destruct (hc_at cols (length hdr) hc Hs j k _ Hj) as (c1 & E1 & Ha). injection E1 as <-. destruct (all_nth _ _ _ _ Ha) as [Ha'|[_ ->]].
      + pose proof (Sep c (nth_error_In _ _ Ha')) as Sp. apply lax_err in Er. apply col_read_spec in Er; [|exact Sp]. exact (W j c v e Ha' Hv Er).
      + destruct v; discriminate Er.
    - intros j k c Hj R. destruct (hc_at cols (length hdr) hc Hs j k _ Hj) as (c1 & E1 & Ha). injection E1 as <-. destruct (all_nth _ _ _ _ Ha) as [Ha'|[_ ->]]; [|discriminate R].
      destruct (Own j k c c Hj Ha') as [_ Hh]. destruct (C j k c Hh Ha' R) as (i & h' & c' & Hi & Hh' & Hc' & Hor).
      assert (Li : (i < length cols)%nat) by (apply nth_error_Some; congruence). destruct (proj1 (Hn i h' Li) Hh') as (oc & Ho). destruct (hc_at cols (length hdr) hc Hs i h' _ Ho) as (c2 & -> & _). destruct (Own i h' c2 c' Ho Hc') as [-> _].
      exists i, (h', Some c'). split; [exact Hi|]. split; [exact Ho|]. cbn [fst snd key_of]. destruct Hor as [->|Hor]; [left; split; [reflexivity|discriminate]|right; exact Hor]. }
  split; [exact E|]. clear E. revert F. apply Forall2_impl_in. intros [line row] [line' d] Hin [E (virt & X)]. cbn [fst snd] in *. cbn zeta in X. destruct X as (-> & Kv & X). split; [exact E|].
  exists (map (entry sc) (combine hc row)), (absent (map (entry sc) (combine hc row)) (colnames cols)), virt, (virtualcols cols).
  split; [reflexivity|]. split; [rewrite entry_keys, Hk; reflexivity|]. split; [|split; [apply absent_selected|split; [apply virtual_templates|split; [exact Kv|exact X]]]].
  intros j kx text Hj Ht. rewrite nth_error_map in Hj. destruct (nth_error (combine hc row) j) as [[[k oc] v]|] eqn:Ej; [|discriminate Hj]. cbn in Hj. injection Hj as <-. apply nth_error_combine_inv in Ej. destruct Ej as [Ej Ev]. rewrite Ht in Ev. injection Ev as <-.
  destruct (hc_at cols (length hdr) hc Hs j k _ Ej) as (c1 & -> & Ha). cbn [entry fst snd]. unfold cell_lenient. destruct (all_nth _ _ _ _ Ha) as [Ha'|[Ha' ->]]; rewrite Ha'.
  - apply lax_val_ok; [exact (Sep c1 (nth_error_In _ _ Ha'))|]. intros e He. destruct (Rows line row Hin) as [_ W]. exact (W j c1 text e Ha' Ht He).
  - apply anon_val.
Qed.
End Tables.
(** *** without columns *)
Section Free.
Context {V : Type} (sc : scalars V) (expand : pystr -> dict V -> res pystr).
Notation hcs := (list (pystr * option (tcol V))).
Lemma read_free strict log line (hc : hcs) : anonymous hc -> forall row j d,
  ro_exn (read_cells sc strict log line j hc row d) = None /\ ro_msgs (read_cells sc strict log line j hc row d) = [] /\ ro_dict (read_cells sc strict log line j hc row d) = dset_all str_eqb d (map (entry sc) (combine hc row)).
Proof.
  induction hc as [|[k oc] hc IH]; intros A row j d; [repeat split|]. destruct row as [|v row]; [destruct oc; repeat split|].
  assert (A' : anonymous hc) by (intros k' c' H; apply (A k' c'); right; exact H).
  destruct oc as [c|]; cbn [read_cells combine map].
  - unfold dset_all. cbn [fold_left]. fold (@dset_all pystr (pyval V) str_eqb). cbn [entry fst snd key_of]. unfold lax_val.
    destruct (A k c (or_introl eq_refl)) as [_ ->]. destruct v as [|x v]; cbn [fst snd]; exact (IH A' row (S j) _).
  - exact (IH A' row (S j) _).
Qed.
Lemma process_free strict log line (hc : hcs) row : anonymous hc -> NoDup (map key_of hc) ->
  exists w, process_row sc expand strict log [] line hc row = {| ro_dict := map (entry sc) (combine hc row); ro_msgs := []; ro_warns := w; ro_exn := None |}.
Proof.
  intros A ND. unfold process_row. destruct (read_free strict log line hc A row 0 []) as (-> & M & D).
  assert (Mc : forall d, missing_cells line hc row d = []).
  { intros d. apply (proj2 (missing_nil expand line hc row d)). intros j k c Hj R. destruct (A k c (nth_error_In _ _ Hj)) as [H _]. congruence. }
  rewrite Mc, andb_false_r, D, M. rewrite (dset_all_new str_eqb str_eqb_eq) by (cbn [map app]; rewrite entry_keys; apply firstn_nodup; exact ND). eexists. reflexivity.
Qed.
Lemma iter_free strict log (hc : hcs) : hc <> [] -> anonymous hc -> NoDup (map key_of hc) -> forall rows,
  io_end (iter_rows sc expand strict log [] hc rows None) = None /\ io_msgs (iter_rows sc expand strict log [] hc rows None) = []
  /\ Forall2 (fun lr ld => fst lr = fst ld /\ snd ld = map (entry sc) (combine hc (snd lr))) rows (io_rows (iter_rows sc expand strict log [] hc rows None)).
Proof.
  intros NE A ND. induction rows as [|[line row] rows (I1 & I2 & I3)]; [repeat split; constructor|]. cbn [iter_rows]. rewrite ensure_nonempty by exact NE.
  destruct (process_free strict log line hc row A ND) as (w & ->). cbn [ro_exn io_cons io_end io_msgs io_rows ro_msgs ro_dict app]. repeat split; try assumption. constructor; [|exact I3]. split; reflexivity.
Qed.
Theorem plain_rows lim dl lang strict log file line hdr data :
  reader_with_line_number lim (Some dl) kw0 file = Ok ((line, hdr) :: data, None) -> d_header dl = true -> hdr <> [] -> NoDup hdr ->
  let out := iterdicts sc expand lim dl lang strict log (@nil (tcol V)) file in
  io_end out = None /\ io_msgs out = [] /\ Forall2 (fun lr ld => fst lr = fst ld /\ row_plain sc hdr (snd lr) (snd ld)) data (io_rows out).
Proof.
  intros Rd Hd NE ND. cbn zeta. unfold iterdicts. rewrite Rd, Hd. unfold iter_data.
  assert (E : header_cols strict (@nil (tcol V)) hdr = Ok (map (fun h => (h, None)) hdr)).
  { unfold header_cols. destruct hdr as [|h hdr]; [contradiction|]. destruct (list_eq_dec str_eq_dec (h :: hdr) (colnames (@nil (tcol V)))) as [E|_]; [discriminate E|]. cbn [length Nat.leb orb andb]. rewrite andb_false_r. cbn [andb].
    generalize (h :: hdr) as l. induction l as [|x l IH]; [reflexivity|]. cbn [mapM]. change (get_column (@nil (tcol V)) x) with (@Ok (option (tcol V)) None). cbn [bind]. rewrite IH. reflexivity. }
  rewrite E. cbn [missing_required existsb io_end io_msgs io_rows].
  assert (K : map key_of (map (fun h => (h, @None (tcol V))) hdr) = hdr) by (rewrite map_map; cbn; apply map_id).
  destruct (iter_free strict log (map (fun h => (h, None)) hdr)) with (rows := data) as (I1 & I2 & I3).
  - destruct hdr; [contradiction|discriminate].
  - intros k c H. apply in_map_iff in H. destruct H as (h & H & _). discriminate H.
  - rewrite K. exact ND.
  - split; [exact I1|]. split; [exact I2|]. revert I3. apply Forall2_impl_in. intros [l row] [l' d] _ [H1 H2]. cbn [fst snd] in *. subst d. split; [exact H1|]. split; [rewrite entry_keys, K; reflexivity|].
    intros j kx text Hj Ht. rewrite nth_error_map in Hj. destruct (nth_error (combine _ row) j) as [[[k oc] v]|] eqn:Ej; [|discriminate Hj]. cbn in Hj. injection Hj as <-. apply nth_error_combine_inv in Ej. destruct Ej as [Ej Ev]. rewrite Ht in Ev. injection Ev as <-.
    rewrite nth_error_map in Ej. destruct (nth_error hdr j); [|discriminate Ej]. cbn in Ej. injection Ej as <- <-. reflexivity.
Qed.
Definition numbered_cols (n : nat) : hcs := map (fun i => (col_n (Some (S i)), Some (anon_col (S i)))) (seq 0 n).
Lemma numbered_keys n : map key_of (numbered_cols n) = map number_name (seq 1 n).
Proof. unfold numbered_cols. rewrite map_map, <- seq_shift, map_map. apply map_ext. reflexivity. Qed.
Lemma numbered_nodup n : NoDup (map key_of (numbered_cols n)).
Proof.
  rewrite numbered_keys. apply FinFun.Injective_map_NoDup; [|apply seq_NoDup]. intros a b H. unfold number_name in H. apply app_inv_head in H. apply digits_inj in H. lia.
Qed.
Lemma numbered_anon n : anonymous (numbered_cols n).
Proof. intros k c H. apply in_map_iff in H. destruct H as (i & E & _). injection E as _ <-. split; reflexivity. Qed.
Lemma numbered_entries n row : row_numbered sc n row (map (entry sc) (combine (numbered_cols n) row)).
Proof.
  split.
  - rewrite entry_keys, numbered_keys, firstn_map. f_equal. rewrite Nat.min_comm. clear. generalize 1%nat as s. revert n. induction (length row) as [|m IH]; intros n s; [reflexivity|]. destruct n as [|n]; [reflexivity|]. cbn [seq firstn Nat.min]. f_equal. apply IH.
  - intros j kx text Hj Ht. rewrite nth_error_map in Hj. destruct (nth_error (combine _ row) j) as [[[k oc] v]|] eqn:Ej; [|discriminate Hj]. cbn in Hj. injection Hj as <-. apply nth_error_combine_inv in Ej. destruct Ej as [Ej Ev]. rewrite Ht in Ev. injection Ev as <-.
    unfold numbered_cols in Ej. rewrite nth_error_map in Ej. destruct (nth_error (seq 0 n) j); [|discriminate Ej]. cbn in Ej. injection Ej as <- <-. apply anon_val.
Qed.
Lemma iter_numbered strict log rows : exists n, width (map snd rows) n /\
  io_end (iter_rows sc expand strict log [] [] rows None) = None /\ io_msgs (iter_rows sc expand strict log [] [] rows None) = []
  /\ Forall2 (fun lr ld => fst lr = fst ld /\ row_numbered sc n (snd lr) (snd ld)) rows (io_rows (iter_rows sc expand strict log [] [] rows None)).
Proof.
  induction rows as [|[line row] rows (n & W & I1 & I2 & I3)]; [exists 0%nat; repeat split; [left; split; [reflexivity|intros row []]|constructor]|].
  destruct row as [|v row].
  - exists n. split.
    + destruct W as [[-> W]|(b & r & a & E & Hb & Hr & ->)]; [left; split; [reflexivity|]; intros r [<-|Hr]; auto|right]. exists ([] :: b), r, a. cbn [map snd]. rewrite E. repeat split; [|exact Hr]. intros r' [<-|Hr']; auto.
    + cbn [iter_rows ensure_cols length seq map]. destruct (process_free strict log line [] [] (fun k c (H : In _ []) => False_ind _ H) (NoDup_nil _)) as (w & ->). cbn [ro_exn io_cons io_end io_msgs io_rows ro_msgs ro_dict app]. repeat split; try assumption. constructor; [|exact I3]. split; [reflexivity|]. split; [rewrite Nat.min_0_r; reflexivity|]. intros j kx text _ H. destruct j; discriminate H.
  - exists (length (v :: row)). split; [right; exists [], (v :: row), (map snd rows); repeat split; [intros r []|discriminate]|].
    destruct (iter_free strict log (numbered_cols (length (v :: row)))) with (rows := (line, v :: row) :: rows) as (J1 & J2 & J3); [discriminate|apply numbered_anon|apply numbered_nodup|].
    assert (E : iter_rows sc expand strict log [] [] ((line, v :: row) :: rows) None = iter_rows sc expand strict log [] (numbered_cols (length (v :: row))) ((line, v :: row) :: rows) None) by reflexivity.
    rewrite E. split; [exact J1|]. split; [exact J2|]. revert J3. apply Forall2_impl_in. intros [l r] [l' d] _ [H1 H2]. cbn [fst snd] in *. subst d. split; [exact H1|]. apply numbered_entries.
Qed.
Theorem numbered_rows lim dl lang strict log file rows :
  reader_with_line_number lim (Some dl) kw0 file = Ok (rows, None) -> d_header dl = false ->
  let out := iterdicts sc expand lim dl lang strict log (@nil (tcol V)) file in
  exists n, width (map snd rows) n /\ io_end out = None /\ io_msgs out = [] /\ Forall2 (fun lr ld => fst lr = fst ld /\ row_numbered sc n (snd lr) (snd ld)) rows (io_rows out).
Proof.
  intros Rd Hd. cbn zeta. unfold iterdicts. rewrite Rd, Hd. unfold iter_data. change (colnames (@nil (tcol V))) with (@nil pystr). assert (E : header_cols strict (@nil (tcol V)) [] = Ok []) by reflexivity. rewrite E. cbn [missing_required existsb io_end io_msgs io_rows].
  destruct (iter_numbered strict log rows) as (n & W & I1 & I2 & I3). exists n. auto 6.
Qed.
End Free.
