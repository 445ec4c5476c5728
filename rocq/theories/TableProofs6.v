(** Proof of C27. *)
From Verif Require Import PyStr PyCsv Dsv DsvSpec DsvProofs DsvProofs2 DsvProofs4 NatLang Column ColumnProofs ColumnProofs2 Schema Table TableSpec TableProofs TableProofs2 TableProofs3 TableProofs4 TableProofs5.

Section R.
Context {V : Type} (sc : scalars V) (expand : pystr -> dict V -> res pystr).

Lemma pk_keys_exist lim dl lang strict log (cols : list (tcol V)) file pk :
  (forall k, In k pk -> exists c, In c cols /\ tc_virtual c = false /\ tc_header c = k) ->
  exists keys, Forall2 (fun lr key => has_keys pk (snd lr) key) (io_rows (iterdicts sc expand lim dl lang strict log cols file)) keys.
Proof.
  intros H. pose proof (fun line d c => all_keys sc expand lim dl lang strict log cols file line d c) as A.
  induction (io_rows (iterdicts sc expand lim dl lang strict log cols file)) as [|[line d] rows IH]; [exists []; constructor|].
  destruct IH as [keys IH]; [intros l d' c Hin; eapply A; right; exact Hin|].
  assert (X : exists key, has_keys pk d key).
  { clear IH keys. induction pk as [|k pk IHp]; [exists []; constructor|]. destruct IHp as [key Hkey]; [intros k' Hk'; apply H; right; exact Hk'|].
    destruct (H k (or_introl eq_refl)) as (c & Hc & Hv & <-). pose proof (A line d c (or_introl eq_refl) Hc Hv) as Hh. unfold has_key in Hh.
    destruct (dget str_eqb d (tc_header c)) as [v|] eqn:E; [|congruence]. exists (v :: key). constructor; assumption. }
  destruct X as [key X]. exists (key :: keys). constructor; assumption.
Qed.

(** reading the cells of a complete row *)
Definition regular_hc (cols : list (tcol V)) : list (pystr * option (tcol V)) :=
  map (fun c => (tc_header c, Some c)) (regular cols).
Lemma read_cells_all log line (cs : list (tcol V)) : forall row vals j d,
  Forall2 (fun cv x => fst (col_read sc true (tc_st (fst cv)) (snd cv)) = Ok x) (combine cs row) vals -> length row = length cs ->
  let o := read_cells sc true log line j (map (fun c => (tc_header c, Some c)) cs) row d in
  ro_exn o = None /\ ro_msgs o = [] /\ ro_dict o = dset_all str_eqb d (combine (map tc_header cs) vals).
Proof.
  induction cs as [|c cs IH]; intros row vals j d H Hl; cbn zeta.
  - destruct row; [|discriminate]. inversion H. cbn. auto.
  - destruct row as [|v row]; [discriminate|]. cbn [combine] in H. destruct vals as [|x vals]; [inversion H|].
    assert (X : fst (col_read sc true (tc_st c) v) = Ok x /\ Forall2 (fun cv x => fst (col_read sc true (tc_st (fst cv)) (snd cv)) = Ok x) (combine cs row) vals) by (inversion H; auto).
    destruct X as [X1 X2]. cbn [map read_cells]. rewrite X1. destruct (IH row vals (S j) (dset str_eqb d (tc_header c) x) X2 ltac:(cbn in Hl; lia)) as (A & B & C).
    cbn [ro_push ro_exn ro_msgs ro_dict app combine dset_all fold_left]. split; [exact A|]. split; [exact B|]. rewrite C. reflexivity.
Qed.
Lemma Forall2_cons_iff {A B} (R : A -> B -> Prop) a b l l' : Forall2 R (a :: l) (b :: l') <-> R a b /\ Forall2 R l l'.
Proof. split; [intros H; inversion H; auto|intros [H1 H2]; constructor; assumption]. Qed.
Lemma dset_in {A} (d : list (pystr * A)) k v x : In x (dset str_eqb d k v) -> x = (k, v) \/ In x d.
Proof.
  induction d as [|[k' v'] d IH]; cbn; [intros [<-|[]]; auto|]. destruct (str_eqb k k') eqn:E.
  - apply str_eqb_eq in E. subst k'. intros [<-|H]; auto.
  - intros [<-|H]; [auto|]. destruct (IH H); auto.
Qed.
Lemma dset_all_in {A} (kvs : list (pystr * A)) : forall d x, In x (dset_all str_eqb d kvs) -> In x kvs \/ In x d.
Proof.
  induction kvs as [|[k v] kvs IH]; intros d x H; cbn in H; [auto|]. apply IH in H. destruct H as [H|H]; [left; right; exact H|].
  apply dset_in in H. destruct H as [->|H]; [left; left; reflexivity|auto].
Qed.
Lemma missing_cells_full line (cs : list (tcol V)) row d : length row = length cs ->
  missing_cells line (map (fun c => (tc_header c, Some c)) cs) row d = [].
Proof.
  intros H. unfold missing_cells. apply flat_map_nil. intros [k j] Hin. cbn [fst snd]. unfold required_keys in Hin. apply dset_all_in in Hin.
  destruct Hin as [Hin|[]]. apply in_flat_map in Hin. destruct Hin as ([j' [k' oc]] & Hi & Hin). cbn in Hin. destruct oc as [c|]; [|destruct Hin].
  destruct (tc_required c); [|destruct Hin]. destruct Hin as [X|[]]. injection X as -> ->.
  apply in_combine_r in Hi. unfold seen_keys. rewrite firstn_all2 by (rewrite map_length; lia).
  replace (str_mem k _) with true; [reflexivity|]. symmetry. apply str_mem_In. apply in_flat_map. exists (k, Some c). split; [exact Hi|]. left. reflexivity.
Qed.
Lemma setdefault_noop (ks : list pystr) : forall d : dict V, (forall k, In k ks -> dget str_eqb d k <> None) -> setdefault_all d ks = d.
Proof.
  induction ks as [|k ks IH]; intros d H; cbn; [reflexivity|]. pose proof (H k (or_introl eq_refl)) as Hk.
  destruct (dget str_eqb d k); [|congruence]. apply IH. intros k' Hk'. apply H. right. exact Hk'.
Qed.
Lemma dget_combine (ks : list pystr) : forall (vs : list (pyval V)) k, length vs = length ks -> In k ks -> dget str_eqb (combine ks vs) k <> None.
Proof.
  induction ks as [|a ks IH]; intros [|v vs] k Hl Hin; try discriminate; [destruct Hin|]. cbn. destruct (str_eqb k a) eqn:E; [discriminate|].
  destruct Hin as [->|Hin]; [rewrite (proj2 (str_eqb_eq k k) eq_refl) in E; discriminate|]. apply IH; [cbn in Hl; lia|exact Hin].
Qed.
Lemma iter_rows_all strict log cols endr hc rows : forall dicts,
  Forall2 (fun lr d => ensure_cols hc (snd lr) = hc /\ let o := process_row sc expand strict log cols (fst lr) hc (snd lr) in
             ro_exn o = None /\ ro_msgs o = [] /\ ro_dict o = d) rows dicts ->
  let o := iter_rows sc expand strict log cols hc rows endr in
  io_end o = endr /\ io_msgs o = [] /\ Forall2 (fun y d => snd y = d) (io_rows o) dicts.
Proof.
  induction rows as [|[line row] rows IH]; intros dicts H; cbn zeta.
  - inversion H. cbn. split; [reflexivity|]. split; [reflexivity|]. constructor.
  - destruct dicts as [|d dicts]; [inversion H|]. apply Forall2_cons_iff in H. destruct H as [(H1 & H2 & H3 & H4) H]. cbn [fst snd] in *.
    destruct (IH dicts H) as (A & B & C). cbn [iter_rows]. rewrite H1, H2. unfold io_cons. cbn [io_end io_msgs io_rows]. rewrite H3. cbn [app].
    split; [exact A|]. split; [exact B|]. constructor; [exact H4|exact C].
Qed.
Definition the_vals (cols : list (tcol V)) (kvs : dict V) : list (pyval V) :=
  map (fun c => match dget str_eqb kvs (tc_header c) with Some x => x | None => PNone end) (regular cols).
Lemma regular_in (cols : list (tcol V)) c : In c (regular cols) <-> In c cols /\ tc_virtual c = false.
Proof. unfold regular. rewrite filter_In, negb_true_iff. reflexivity. Qed.
Lemma complete_get (cols : list (tcol V)) kvs c : complete_item cols kvs -> In c cols -> tc_virtual c = false ->
  exists v, dget str_eqb kvs (tc_header c) = Some v.
Proof.
  intros [_ H] Hc Hv. assert (Hin : In (tc_header c) (map fst kvs)) by (apply H; eauto). clear H.
  induction kvs as [|[k v] kvs IH]; [destruct Hin|]. cbn. destruct (str_eqb (tc_header c) k) eqn:E; [eauto|].
  destruct Hin as [X|X]; [|auto]. cbn in X. subst k. rewrite (proj2 (str_eqb_eq _ _) eq_refl) in E. discriminate.
Qed.
Lemma row_exists (cols : list (tcol V)) kvs : complete_item cols kvs ->
  (forall c v, In c cols -> tc_virtual c = false -> dget str_eqb kvs (tc_header c) = Some v -> survives sc c v) ->
  exists cells, row_of sc cols (IDict kvs) cells
   /\ Forall2 (fun cv x => fst (col_read sc true (tc_st (fst cv)) (snd cv)) = Ok x) (combine (regular cols) (map cell_text cells)) (the_vals cols kvs).
Proof.
  intros Hc Hs.
  assert (X : exists cells, item_row sc cols (IDict kvs) = Ok cells
    /\ Forall2 (fun cv x => fst (col_read sc true (tc_st (fst cv)) (snd cv)) = Ok x) (combine (regular cols) (map cell_text cells)) (the_vals cols kvs)).
  { cbn [item_row]. unfold the_vals. assert (Hin : forall c, In c (regular cols) -> In c cols /\ tc_virtual c = false) by (intros c; apply regular_in).
    induction (regular cols) as [|c cs IH]; [exists []; split; [reflexivity|constructor]|].
    destruct (Hin c (or_introl eq_refl)) as [H1 H2]. destruct (complete_get cols kvs c Hc H1 H2) as [v Ev].
    destruct (Hs c v H1 H2 Ev) as (x & X1 & X2). destruct IH as (cells & I1 & I2); [intros c' Hc'; apply Hin; right; exact Hc'|].
    exists (x :: cells). cbn [mapM map combine]. rewrite Ev. cbn [getdef]. rewrite X1. cbn [bind]. rewrite I1. cbn. split; [reflexivity|]. constructor; assumption. }
  destruct X as (cells & X1 & X2). exists cells. split; [apply item_row_iff; exact X1|exact X2].
Qed.
Lemma final_dict (cols : list (tcol V)) kvs d0 : distinct_headers cols -> complete_item cols kvs ->
  add_virtual sc expand (combine (colnames cols) (the_vals cols kvs)) (virtualcols cols) = Ok d0 ->
  (forall c, In c cols -> tc_virtual c = false -> dget str_eqb d0 (tc_header c) = dget str_eqb kvs (tc_header c))
  /\ ((forall c, In c cols -> tc_virtual c = false) -> same_mapping d0 kvs /\ map fst d0 = map tc_header cols).
Proof.
  intros Hd Hc Hv.
  assert (Hn : NoDup (colnames cols)).
  { unfold colnames, regular. clear -Hd. unfold distinct_headers in Hd. induction cols as [|a cols IH]; [constructor|].
    cbn in *. apply NoDup_cons_iff in Hd. destruct Hd as [Ha Hd]. destruct (negb (tc_virtual a)); cbn; [|apply IH; exact Hd].
    constructor; [|apply IH; exact Hd]. intros X. apply Ha. apply in_map_iff in X. destruct X as (y & <- & Hy). apply filter_In in Hy. apply in_map. apply Hy. }
  assert (Hg : forall c, In c cols -> tc_virtual c = false ->
    dget str_eqb (combine (colnames cols) (the_vals cols kvs)) (tc_header c) = dget str_eqb kvs (tc_header c)).
  { intros c Hin Hvc. destruct (complete_get cols kvs c Hc Hin Hvc) as [v Ev]. rewrite Ev. clear Hv Hd Hc.
    assert (Hr : In c (regular cols)) by (apply regular_in; auto). unfold colnames, the_vals in *. induction (regular cols) as [|a cs IH]; [destruct Hr|].
    cbn. destruct (str_eqb (tc_header c) (tc_header a)) eqn:E.
    - apply str_eqb_eq in E. rewrite <- E, Ev. reflexivity.
    - destruct Hr as [->|Hr]; [rewrite (proj2 (str_eqb_eq _ _) eq_refl) in E; discriminate|]. cbn in Hn. apply NoDup_cons_iff in Hn. apply IH; [apply Hn|exact Hr]. }
  split.
  - intros c Hin Hvc. rewrite <- Hg by assumption. apply (add_virtual_get _ _ _ _ _ _ Hv). intros X. unfold virtualcols in X. apply in_map_iff in X.
    destruct X as ([k u] & Ek & X). cbn in Ek. apply in_flat_map in X. destruct X as (c' & Hc' & X).
    destruct (tc_virtual c') eqn:E; [|destruct X]. destruct (de_valueUrl (c_desc (tc_col c'))); [|destruct X]. destruct X as [X|[]]. injection X as X _.
    assert (c' = c) by (eapply nodup_header_eq; [exact Hd|exact Hc'|exact Hin|congruence]). congruence.
  - intros Hall. assert (Ev : virtualcols cols = []).
    { unfold virtualcols. apply flat_map_nil. intros c Hin. rewrite (Hall c Hin). reflexivity. }
    rewrite Ev in Hv. cbn in Hv. injection Hv as <-.
    assert (Er : regular cols = cols).
    { unfold regular. clear -Hall. induction cols as [|a cols IH]; [reflexivity|]. cbn. rewrite (Hall a (or_introl eq_refl)). cbn. f_equal. apply IH. intros c Hc. apply Hall. right. exact Hc. }
    assert (Ef : map fst (combine (colnames cols) (the_vals cols kvs)) = colnames cols).
    { clear. unfold colnames, the_vals. induction (regular cols); cbn; [reflexivity|f_equal; assumption]. }
    split; [|rewrite Ef; unfold colnames; rewrite Er; reflexivity].
    intros k. destruct (in_dec str_eq_dec k (map tc_header cols)) as [Hin|Hout].
    + apply in_map_iff in Hin. destruct Hin as (c & <- & Hin). apply Hg; [exact Hin|apply Hall; exact Hin].
    + assert (A : forall (d : dict V), ~ In k (map fst d) -> dget str_eqb d k = None).
      { clear. induction d as [|[a v] d IH]; intros H; cbn; [reflexivity|]. destruct (str_eqb k a) eqn:E; [apply str_eqb_eq in E; exfalso; apply H; left; symmetry; exact E|].
        apply IH. intros X. apply H. right. exact X. }
      rewrite !A; [reflexivity| |].
      * destruct Hc as [_ Hc]. rewrite Hc. intros (c & Hin & _ & E). apply Hout. rewrite <- E. apply in_map. exact Hin.
      * rewrite Ef. unfold colnames. rewrite Er. exact Hout.
Qed.

Theorem write_read pv lim d dl q term lang strict log (cols : list (tcol V)) before items :
  sane_dialect d dl q term -> d_doubleQuote d = true -> d_skipInitialSpace d = false ->
  quote_crlf pv = true \/ term = [CR; LF] -> keeps_everything d ->
  regular_first cols -> distinct_headers cols -> (forall c, In c cols -> tc_virtual c = true -> tc_required c = false) ->
  expands expand ->
  (forall kvs, In kvs items -> complete_item cols kvs) ->
  (forall kvs c v, In kvs items -> In c cols -> tc_virtual c = false -> dget str_eqb kvs (tc_header c) = Some v -> survives sc c v) ->
  (forall rows, Forall2 (row_of sc cols) (map IDict items) rows ->
     cells_within lim (texts (header_rows d cols ++ rows)) /\ bom_safe d (header_rows d cols ++ rows)) ->
  exists t, table_write sc pv lim d strict cols before (map IDict items) = (Some t, Ok (length items)) /\
    let o := iterdicts sc expand lim d lang true log cols t in
    io_end o = None /\ io_msgs o = [] /\
    Forall2 (fun y kvs => (forall c, In c cols -> tc_virtual c = false -> dget str_eqb (snd y) (tc_header c) = dget str_eqb kvs (tc_header c))
                          /\ ((forall c, In c cols -> tc_virtual c = false) -> same_mapping (snd y) kvs /\ map fst (snd y) = map tc_header cols))
      (io_rows o) items.
Proof.
  intros Hsane Hdq Hskip Hnl Hke Hreg Hdist Hvr Hx Hcomp Hsurv Hok.
  assert (Hrows : exists rows, Forall2 (row_of sc cols) (map IDict items) rows /\
    Forall2 (fun cells kvs => length cells = length (regular cols) /\
      Forall2 (fun cv x => fst (col_read sc true (tc_st (fst cv)) (snd cv)) = Ok x) (combine (regular cols) (map cell_text cells)) (the_vals cols kvs)) rows items).
  { clear Hok. induction items as [|kvs items IH]; [exists []; split; constructor|].
    destruct IH as (rows & I1 & I2); [intros; apply Hcomp; right; assumption|intros; eapply Hsurv; try right; eassumption|].
    destruct (row_exists cols kvs) as (cells & R1 & R2); [apply Hcomp; left; reflexivity|intros; eapply Hsurv; try left; eauto|].
    exists (cells :: rows). split; constructor; auto. split; [apply R1|exact R2]. }
  destruct Hrows as (rows & HF & HR). destruct (Hok rows HF) as [Hlen Hbom].
  destruct (dialect_rows_roundtrip pv lim d dl q term _ Hsane Hdq Hnl Hlen Hbom) as (t & Ht & Hread).
  assert (E : map (map (skip_back d dl q)) (texts (header_rows d cols ++ rows)) = texts (header_rows d cols ++ rows)).
  { transitivity (map (fun r : list pystr => r) (texts (header_rows d cols ++ rows))); [|apply map_id].
    apply map_ext; intros r. transitivity (map (fun c : pystr => c) r); [|apply map_id]. apply map_ext; intros c. unfold skip_back; rewrite Hskip; reflexivity. }
  rewrite E in Hread. clear E. exists t. split.
  { apply write_ok. split; [rewrite map_length; reflexivity|]. split; [|exists rows, t; auto].
    intros _ it Hit. apply in_map_iff in Hit. destruct Hit as (kvs & <- & Hin). cbn. intros (k & v & Hkv & Hno).
    destruct (Hcomp kvs Hin) as [_ Hk]. assert (X : In k (map fst kvs)) by (apply in_map_iff; exists (k, v); auto).
    apply Hk in X. destruct X as (c & C1 & C2 & C3). exact (Hno c C1 C2 C3). }
  cbn zeta. unfold iterdicts, reader_with_line_number. rewrite Hread. cbn [bind fst snd].
  pose proof (reader_iter_keeps d (texts (header_rows d cols ++ rows)) Hke) as Hkeep.
  remember (map (fun x : nat * list pystr => (S (fst x), snd x)) (fst (reader_iter (Some d) (texts (header_rows d cols ++ rows))))) as R eqn:ER.
  assert (HRs : map snd R = texts (header_rows d cols ++ rows)).
  { rewrite ER, map_map. cbn [snd]. exact Hkeep. }
  clear ER Hkeep.
  assert (Main : forall data ws, map snd data = texts rows ->
    let o := iter_data sc expand true log cols (colnames cols) ws data None in
    io_end o = None /\ io_msgs o = [] /\
    Forall2 (fun y kvs => (forall c, In c cols -> tc_virtual c = false -> dget str_eqb (snd y) (tc_header c) = dget str_eqb kvs (tc_header c))
                          /\ ((forall c, In c cols -> tc_virtual c = false) -> same_mapping (snd y) kvs /\ map fst (snd y) = map tc_header cols))
      (io_rows o) items).
  { intros data ws Hdata. cbn zeta. unfold iter_data, header_cols. destruct (list_eq_dec str_eq_dec (colnames cols) (colnames cols)) as [_|N]; [|congruence].
    cbn [orb]. rewrite (own_header_cols cols Hreg).
    change (map (fun c => (tc_header c, Some c)) (regular cols)) with (regular_hc cols).
    replace (missing_required cols (regular_hc cols)) with false.
    2:{ symmetry. apply missing_required_iff. intros c Hc Hq. exists (tc_header c), c. split; [|reflexivity]. unfold regular_hc.
        apply in_map_iff. exists c. split; [reflexivity|]. apply regular_in. split; [exact Hc|]. destruct (tc_virtual c) eqn:Ev; [|reflexivity]. rewrite (Hvr c Hc Ev) in Hq. discriminate. }
    cbn [io_rows io_msgs io_end].
    assert (HD : exists dicts, Forall2 (fun lr d0 => ensure_cols (regular_hc cols) (snd lr) = regular_hc cols /\
          let o := process_row sc expand true log cols (fst lr) (regular_hc cols) (snd lr) in ro_exn o = None /\ ro_msgs o = [] /\ ro_dict o = d0) data dicts
        /\ Forall2 (fun d0 kvs => add_virtual sc expand (combine (colnames cols) (the_vals cols kvs)) (virtualcols cols) = Ok d0) dicts items).
    { clear Hok HF Hlen Hbom Ht Hread HRs Hsurv Hcomp. revert rows Hdata items HR. induction data as [|[line row] data IH]; intros rows Hdata.
      - destruct rows; [|discriminate]. intros items HR'. inversion HR'. exists []. split; constructor.
      - destruct rows as [|cells rows]; [discriminate|]. cbn in Hdata. injection Hdata as -> Hdata. intros items HR'. destruct items as [|kvs items]; [inversion HR'|].
        apply Forall2_cons_iff in HR'. destruct HR' as [[L1 L2] HR'].
        destruct (IH rows Hdata items HR') as (dicts & D1 & D2); clear IH.
        destruct (add_virtual_total sc expand (proj1 Hx) (virtualcols cols) (combine (colnames cols) (the_vals cols kvs))) as [d0 Ed0].
        exists (d0 :: dicts). split; constructor; auto. cbn [fst snd].
        assert (Ll : length (map cell_text cells) = length (regular cols)) by (rewrite map_length; exact L1).
        split.
        { unfold ensure_cols. destruct (regular_hc cols) eqn:Eh; [|reflexivity]. unfold regular_hc in Eh. apply map_eq_nil in Eh. rewrite Eh in Ll. rewrite Ll. reflexivity. }
        cbn zeta. unfold process_row, regular_hc.
        destruct (read_cells_all log line (regular cols) (map cell_text cells) (the_vals cols kvs) 0 [] L2 Ll) as (A & B & C).
        rewrite A, missing_cells_full by exact Ll. cbn [negb andb]. rewrite andb_false_r.
        assert (Hn : NoDup (colnames cols)).
        { unfold colnames, regular. clear -Hdist. unfold distinct_headers in Hdist. induction cols as [|a cols IH]; [constructor|].
          cbn in *. apply NoDup_cons_iff in Hdist. destruct Hdist as [Ha Hd]. destruct (negb (tc_virtual a)); cbn; [|apply IH; exact Hd].
          constructor; [|apply IH; exact Hd]. intros X. apply Ha. apply in_map_iff in X. destruct X as (y & <- & Hy). apply filter_In in Hy. apply in_map. apply Hy. }
        assert (Lv : length (the_vals cols kvs) = length (colnames cols)) by (unfold the_vals, colnames; rewrite !map_length; reflexivity).
        rewrite C. fold (colnames cols). rewrite (dset_all_new _ str_eqb_eq).
        2:{ cbn [map app]. replace (map fst (combine (colnames cols) (the_vals cols kvs))) with (colnames cols); [exact Hn|].
            clear -Lv. revert Lv. generalize (the_vals cols kvs). induction (colnames cols) as [|a l IH]; intros [|v vs] H; try discriminate; [reflexivity|]. cbn. f_equal. apply IH. cbn in H. lia. }
        cbn [app]. rewrite setdefault_noop by (intros k Hk; apply dget_combine; [exact Lv|exact Hk]). rewrite Ed0. cbn. rewrite B. auto. }
    destruct HD as (dicts & D1 & D2). destruct (iter_rows_all true log cols None (regular_hc cols) data dicts D1) as (A & B & C).
    split; [exact A|]. split; [exact B|]. clear A B.
    assert (Hcomp' : forall kvs, In kvs items -> complete_item cols kvs) by exact Hcomp. clear -C D2 Hcomp' Hdist.
    revert items D2 Hcomp'. induction C as [|y d0 ys dicts E C IH]; intros items D2 Hc; destruct items as [|kvs items]; try (inversion D2; fail); constructor.
    - apply Forall2_cons_iff in D2. destruct D2 as [D2 _]. apply final_dict; [exact Hdist|apply Hc; left; reflexivity|rewrite <- E in D2; exact D2].
    - apply Forall2_cons_iff in D2. apply IH; [apply D2|]. intros k Hk. apply Hc. right. exact Hk. }
  rewrite header_rows_eq in HRs. destruct (d_header d).
  - destruct R as [|[l hdr] R]; [discriminate|]. cbn in HRs. injection HRs as -> HRs. rewrite map_map. cbn [cell_text]. rewrite map_id. apply Main. exact HRs.
  - apply Main. exact HRs.
Qed.
End R.
