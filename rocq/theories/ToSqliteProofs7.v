(** csvw2sqlite, put together (C65). *)
From Coq Require Import Permutation.
From Verif Require Import PyStr Json Dsv DsvProofs4 Datatype Column Schema Table TableProofs TableProofs4 JsonTextProofs Zip Files Descr DescrProofs Load Group Sql Db DbSql DbSqlSpec DbSpec DbProofs Sqlite DbWrite DbWriteSpec Cli
  FrictionlessProofs2 ToSqlite ToSqliteSpec ToSqliteProofs1 ToSqliteProofs2 ToSqliteProofs3 ToSqliteProofs4 ToSqliteProofs5 ToSqliteProofs6 Props_DbRound.

Section P.
Variables (W : world value) (sc : scalars value) (expand : pystr -> dict value -> res pystr) (lim : N) (env : fenv) (P : py_fns) (St : store_fns) (bound_str : value -> pystr).
Notation tr := name_translator.

Lemma group_loaded o ks g : keyed_tables W o = Ok ks -> load_group W (load_dtype W) false o = Ok g -> gr_tables g = map k_table ks.
Proof.
  unfold keyed_tables, load_group, group_tables. destruct (nth 17 (o_vals o) (MJ JNull)) as [| | | | | | | | |ts]; try discriminate. intros K G. apply bind_inv in G. destruct G as (ts' & Lt & G).
  repeat (apply bind_inv in G; destruct G as (? & _ & G)). apply Ok_inj in G. subst g. cbn [gr_tables]. apply mapM_Forall2 in K, Lt. clear -K Lt.
  revert ts' Lt. induction K as [|t k ts ks H K IH]; intros ts' Lt; inversion Lt; subst; [reflexivity|]. cbn [map]. f_equal; [|apply IH; assumption].
  unfold load_keyed in H. apply bind_inv in H. destruct H as (t' & Et & H). apply bind_inv in H. destruct H as (s & _ & H). apply Ok_inj in H. subst k. cbn [k_table]. congruence.
Qed.
Lemma by_name g ks : gr_tables g = map k_table ks -> NoDup (map url_of ks) -> tables_by_name g = map (fun k => (url_of k, k_table k)) ks.
Proof.
  intros E Nd. unfold tables_by_name. rewrite E, map_map. rewrite (dset_all_new str_eqb str_eqb_eq); [reflexivity|]. cbn [map app]. rewrite map_map. exact Nd.
Qed.
(** what is read for the tables *)
Lemma items_for g ks fs items : gr_tables g = map k_table ks -> NoDup (map url_of ks) -> group_read sc expand env lim g fs = Ok items ->
  Forall2 (fun k nr => fst nr = url_of k /\ all_rows (table_iter sc expand env lim g fs (k_table k)) = Ok (snd nr)) ks items.
Proof.
  intros E Nd H. unfold group_read in H. rewrite (by_name g ks E Nd) in H. clear E Nd. revert items H. induction ks as [|k ks IH]; intros items H; cbn [map mapM] in H; [apply Ok_inj in H; subst; constructor|].
  apply bind_inv in H. destruct H as (x & Ex & H). apply bind_inv in H. destruct H as (l & El & H). apply Ok_inj in H. subst items. cbn [fst snd] in Ex. apply bind_inv in Ex. destruct Ex as (rows & Er & Ex). apply Ok_inj in Ex. subst x.
  constructor; [split; [reflexivity|exact Er]|apply IH, El].
Qed.
Lemma items_names ks items (R : ktable -> pystr * list (dict value) -> Prop) : (forall k nr, R k nr -> fst nr = url_of k) -> Forall2 R ks items -> map fst items = map url_of ks.
Proof. intros H F. induction F as [|k nr ks' items' E F IH]; [reflexivity|]. cbn [map]. rewrite (H _ _ E), IH. reflexivity. Qed.
Lemma rows_read g fs k rows : names_fit [k] \/ (NoDup (map tc_header (columns k)) /\ forall c n, In c (columns k) -> tc_header c <> col_n (Some n)) ->
  all_rows (table_iter sc expand env lim g fs (k_table k)) = Ok rows -> forall r, In r rows -> tdict sc (columns k) r /\ NoDup (map fst r).
Proof.
  intros Hk H r I. assert (X : NoDup (map tc_header (columns k)) /\ forall c n, In c (columns k) -> tc_header c <> col_n (Some n)).
  { destruct Hk as [Nf|X]; [|exact X]. split; [apply (nf_headers _ Nf k (or_introl eq_refl))|]. intros c n. apply (nf_named _ Nf k c n (or_introl eq_refl)). }
  destruct X as [X1 X2]. unfold all_rows in H. destruct (io_end _); [discriminate H|]. apply Ok_inj in H. subst rows. apply in_map_iff in I. destruct I as ([ln d] & <- & I).
  pose proof (table_good sc expand env lim g fs (k_table k) X1 X2) as G. unfold good_rows in G. rewrite Forall_forall in G. apply (G _ I).
Qed.

Lemma data_some items s rows : dget str_eqb items (ts_name s) = Some rows -> data (items_aligned items) s = aligned rows.
Proof. intros H. unfold data. rewrite items_get, H. reflexivity. Qed.
Lemma data_none items s : dget str_eqb items (ts_name s) = None -> data (items_aligned items) s = [].
Proof. intros H. unfold data. rewrite items_get, H. reflexivity. Qed.
(** [ks]: the tables, with their descriptions [ds] for the database; [items]: their rows *)
Section Fit.
Variables (ks : list ktable) (ds : list dtable) (tables : list tablespec) (items : list (pystr * list (dict value))).
Hypothesis (Tf : types_fit W) (Ss : forall s, s_str sc s = VStr s).
Hypothesis (Ft : Forall2 (table_for W) ds ks) (Sc : schema true ds = Ok tables)
  (Hi : Forall2 (fun k nr => fst nr = url_of k /\ forall r, In r (snd nr) -> tdict sc (columns k) r /\ NoDup (map fst r)) ks items).
Hypothesis (Nf : names_fit ks) (Bc : forall s c, In s tables -> In c (ts_cols s) -> bounds_clean c)
  (Rf : forall k rows, In k ks -> In (url_of k, rows) items -> rows_fit P k rows).

Lemma item_names : map fst items = map url_of ks.
Proof. apply (items_names ks items _ (fun k nr H => proj1 H) Hi). Qed.
Lemma item_get n rows : In (n, rows) items <-> dget str_eqb items n = Some rows.
Proof. apply dget_In_unique. rewrite item_names. apply (nf_tables _ Nf). Qed.
Lemma item_of k : In k ks -> exists rows, In (url_of k, rows) items.
Proof. intros I. destruct (Forall2_in_l _ _ _ Hi k I) as ([n rows] & In' & E & R). cbn [fst snd] in *. subst n. exists rows. assumption. Qed.
Lemma item_table n rows : In (n, rows) items -> exists k, In k ks /\ n = url_of k /\ rows_fit P k rows /\ forall r, In r rows -> tdict sc (columns k) r /\ NoDup (map fst r).
Proof.
  intros I. destruct (Forall2_in_r _ _ _ Hi _ I) as (k & Ik & E & R). cbn [fst snd] in *. exists k. split; [exact Ik|]. split; [exact E|]. subst n. split; [apply (Rf k rows Ik I)|exact R].
Qed.
Lemma url_unique k k' : In k ks -> In k' ks -> url_of k = url_of k' -> k = k'.
Proof.
  intros I I' E. pose proof (nf_tables _ Nf) as Nd. clear -I I' E Nd. revert I I'. induction ks as [|x l IH]; intros [] []; inversion Nd; subst.
  - congruence.
  - exfalso. apply H3. rewrite E. apply in_map. assumption.
  - exfalso. apply H3. rewrite <- E. apply in_map. assumption.
  - apply IH; assumption.
Qed.
Lemma all_step n rows : In (n, rows) items -> rows_step rows.
Proof. intros I. destruct (item_table n rows I) as (k & Ik & -> & R & T). apply (steps sc P k rows R T). Qed.
Lemma tables_facts : exists ss, Forall2 (spec_for W) ss ks /\ tables_ok tr tables /\ only_tables tables (items_aligned items) /\
  (forall s, In s tables -> rows_ok P s (data (items_aligned items) s) /\ lists_ok tr s (data (items_aligned items) s)) /\
  (forall s, In s ss -> In s tables /\ free tables s).
Proof.
  destruct (tables_in W ds ks tables Ft Nf Sc) as (ss & Fs & Nd & Iw & Ty & As). exists ss. split; [exact Fs|]. split; [apply (tables_good W ks ss tables Nf Fs Nd Iw Ty As Bc)|].
  assert (Fresh : forall s h a, In s tables -> In (h, a) (ts_m2m s) -> dget str_eqb items (as_name a) = None).
  { intros s h a Is Ia. destruct (dget str_eqb items (as_name a)) as [rows|] eqn:E; [|reflexivity]. exfalso. apply item_get in E. destruct (item_table _ _ E) as (k & Ik & Ek & _). apply (assoc_fresh W ks ss tables Nf Fs Iw s h a k Is Ia Ik Ek). }
  split; [|split].
  - intros s h a Is Ia. exact (eq_trans (items_get items _) (f_equal (option_map aligned) (Fresh s h a Is Ia))).
  - intros s Is. destruct (wanted_kind W ss ks s Fs (proj1 (Iw s) Is)) as [[_ (k & Ik & Sf & _)]|(a & -> & M)].
    + destruct (item_of k Ik) as (rows & Ir). assert (Eda : data (items_aligned items) s = aligned rows) by (apply data_some; rewrite (sf_name _ _ _ Sf); apply item_get, Ir). rewrite Eda. destruct (item_table _ _ Ir) as (k' & Ik' & Eu & R & T). rewrite <- (url_unique k k' Ik Ik' Eu) in R, T.
      split; [apply (rows_good W sc P Tf Ss ks k s rows Nf Ik Sf R T)|apply (lists_good W sc P Tf Ss ks k s rows Nf Ik Sf R T)].
    + assert (En : dget str_eqb items (ts_name (association_table a)) = None).
      { cbn [association_table ts_name]. destruct (dget str_eqb items (as_name a)) as [rows|] eqn:E; [|reflexivity]. exfalso. apply item_get in E. destruct (item_table _ _ E) as (k & Ik & Ek & _).
        destruct (nf_makes _ Nf _ _ _ _ M (mk_table ks k Ik)) as [_ X]; [rewrite Ek; reflexivity|discriminate X]. }
      assert (Eda : data (items_aligned items) (association_table a) = []) by (apply data_none, En). rewrite Eda. split.
      * constructor; [exists []; split; [constructor|intros r []]|intros r c []|intros r c []].
      * constructor; [left; reflexivity|intros r h a' []|]. split; [constructor|intros h a' []].
  - intros s Is. destruct (Forall2_in_l _ _ _ Fs s Is) as (k & Ik & Sf). split; [apply Iw; unfold wanted; apply in_flat_map; exists s; split; [exact Is|left; reflexivity]|].
    intros s' h a Is' Ia. rewrite (sf_name _ _ _ Sf). apply (assoc_fresh W ks ss tables Nf Fs Iw s' h a k Is' Ia Ik).
Qed.
Lemma data_of ss k rows : Forall2 (spec_for W) ss ks -> In k ks -> In (url_of k, rows) items -> exists s, In s ss /\ spec_for W s k /\ data (items_aligned items) s = aligned rows /\
  forall r, In r rows -> exists keys, aligned rows = map (align keys) rows /\ forall n, dget str_eqb (align keys r) n = dget str_eqb r n.
Proof.
  intros Fs Ik Ir. destruct (Forall2_in_r _ _ _ Fs k Ik) as (s & Is & Sf). exists s. split; [exact Is|]. split; [exact Sf|]. split; [apply data_some; rewrite (sf_name _ _ _ Sf); apply item_get, Ir|].
  pose proof (all_step _ _ Ir) as Stp. intros r I. destruct rows as [|r0 rest]; [destruct I|]. exists (map fst r0). split; [reflexivity|]. apply align_same, (Stp r0 rest r eq_refl I).
Qed.
Lemma kept_back ss k rows : Forall2 (spec_for W) ss ks -> In k ks -> In (url_of k, rows) items -> exists s, In s ss /\ spec_for W s k /\ exists keys, data (items_aligned items) s = map (align keys) rows /\
  forall r, In r rows -> forall out, row_back tr s (align keys r) out -> row_kept k r out.
Proof.
  intros Fs Ik Ir. destruct (data_of ss k rows Fs Ik Ir) as (s & Is & Sf & Ed & _). exists s. split; [exact Is|]. split; [exact Sf|]. pose proof (all_step _ _ Ir) as Stp.
  exists (match rows with r0 :: _ => map fst r0 | [] => [] end). split; [rewrite Ed; destruct rows; reflexivity|]. intros r I out B. destruct rows as [|r0 rest]; [destruct I|].
  apply (row_same W ks k s Nf Ik Sf _ _ _ (align_same _ _ (proj1 (Stp r0 rest r eq_refl I))) B).
Qed.

(** The general round trip *)
Lemma converted force file st D : (forall l, Permutation (scan St l) l) -> (forall l, Permutation (group_scan St l) l) -> write_file P St tr force false tables items file = (st, Some D, Ok tt) ->
  exists out, read P St tr D tables (map url_of ks) = Ok out /\
    forall k rows, In k ks -> In (url_of k, rows) items -> exists rows', Permutation rows' rows /\ Forall2 (row_kept k) rows' (rows_in out (url_of k)).
Proof.
  intros Hs Hgs H. destruct tables_facts as (ss & Fs & Tok & Ot & Rok & Free).
  assert (Al := write_file_align P St tr force items tables file st D all_step H).
  destruct (c39_file P St tr force false tables (items_aligned items) file st D ss Hs Hgs Tok Ot Rok) as (out & Ro & X); [rewrite (names_of_specs W _ _ Fs); apply (nf_tables _ Nf)|exact Free|exact Al|].
  exists out. split; [rewrite <- (names_of_specs W _ _ Fs); exact Ro|].
  intros k rows Ik Ir. destruct (kept_back ss k rows Fs Ik Ir) as (s & Is & Sf & keys & Ed & B).
  destruct (X s Is) as (rows' & Pm & F). rewrite Ed in Pm. apply Permutation_sym in Pm. destruct (Permutation_map_inv _ _ (Permutation_sym Pm)) as (rr & -> & Pr).
  exists rr. split; [apply Permutation_sym, Pr|]. rewrite (sf_name _ _ _ Sf) in F. change (got_rows tr out (url_of k)) with (rows_in out (url_of k)) in F.
  assert (I : forall r, In r rr -> In r rows) by (intros r J; apply (Permutation_in _ (Permutation_sym Pr) J)). clear -F I B. remember (rows_in out (url_of k)) as os eqn:E. clear E.
  revert os F I. induction rr as [|r rr IH]; intros os F I; inversion F; subst; [constructor|]. constructor; [apply (B r (I r (or_introl eq_refl))); assumption|]. apply IH; [assumption|intros x J; apply I; right; exact J].
Qed.
Lemma spec_unique ss s s' k k' : Forall2 (spec_for W) ss ks -> In s ss -> In s' ss -> spec_for W s k -> spec_for W s' k' -> url_of k = url_of k' -> s = s'.
Proof.
  intros Fs I I' S S' E. pose proof (nf_tables _ Nf) as Nd. rewrite <- (names_of_specs W _ _ Fs) in Nd.
  assert (En : ts_name s = ts_name s') by (rewrite (sf_name _ _ _ S), (sf_name _ _ _ S'); exact E). clear -Nd I I' En. revert I I'. induction ss as [|x l IH]; intros [] []; inversion Nd; subst.
  - congruence.
  - exfalso. apply H3. rewrite En. apply in_map. assumption.
  - exfalso. apply H3. rewrite <- En. apply in_map. assumption.
  - apply IH; assumption.
Qed.
Lemma converted_order force file st D : (forall l, scan St l = l) -> (forall l, group_scan St l = l) -> write_file P St tr force false tables items file = (st, Some D, Ok tt) ->
  exists out, read P St tr D tables (map url_of ks) = Ok out /\
    forall k rows, In k ks -> In (url_of k, rows) items ->
    Forall2 (fun r o => row_kept k r o /\ forall h, is_list_key k h -> dget str_eqb o h = Some (PList (map (fun t => Some (VStr t)) (listed r h)))) rows (rows_in out (url_of k)).
Proof.
  intros Hs Hgs H. destruct tables_facts as (ss & Fs & Tok & Ot & Rok & Free).
  assert (Al := write_file_align P St tr force items tables file st D all_step H).
  destruct (c39_order P St tr force false tables (items_aligned items) file st D ss Hs Hgs Tok Ot Rok) as (out & Ro & X); [rewrite (names_of_specs W _ _ Fs); apply (nf_tables _ Nf)|exact Free|exact Al|].
  exists out. split; [rewrite <- (names_of_specs W _ _ Fs); exact Ro|].
  intros k rows Ik Ir. destruct (kept_back ss k rows Fs Ik Ir) as (s & Is & Sf & keys & Ed & B).
    pose proof (all_step _ _ Ir) as Stp.
    specialize (X s Is). rewrite Ed in X. rewrite (sf_name _ _ _ Sf) in X. change (got_rows tr out (url_of k)) with (rows_in out (url_of k)) in X.
    destruct (nf_headers _ Nf k Ik) as (Nh & _).
    assert (Same : forall r, In r rows -> forall n, dget str_eqb (align keys r) n = dget str_eqb r n).
    { destruct rows as [|r0 rest]; [intros r []|]. destruct (data_of ss k (r0 :: rest) Fs Ik Ir) as (s' & Is' & Sf' & Ed' & _).
      assert (Es : s' = s) by (apply (spec_unique ss s' s k k Fs Is' Is Sf' Sf eq_refl)). subst s'. rewrite Ed in Ed'. cbn [aligned] in Ed'. intros r I n.
      assert (Ea : align keys r = align (map fst r0) r). { clear -Ed' I. revert I Ed'. generalize (r0 :: rest) as l. intros l I Ed'. induction l as [|x l IH]; [destruct I|]. cbn [map] in Ed'. assert (E1 : align keys x = align (map fst r0) x) by congruence. assert (E2 : map (align keys) l = map (align (map fst r0)) l) by congruence. destruct I as [<-|I]; [exact E1|apply IH; assumption]. }
      rewrite Ea. apply align_same, (Stp r0 rest r eq_refl I). }
    revert X. remember (rows_in out (url_of k)) as os eqn:E. clear E Stp Ir Ed. revert os. induction rows as [|r rr IH]; intros os F; inversion F; subst; [constructor|].
    constructor; [|apply IH; [intros x I; apply B; right; exact I|intros x I; apply Same; right; exact I|assumption]].
    match goal with Hx : row_exact tr s (align keys r) ?y |- _ => rename Hx into Ex; rename y into out1 end.
    assert (K : row_kept k r out1). { apply (B r (or_introl eq_refl)). exists (map (fun ka => (fst ka, listed (align keys r) (fst ka))) (ts_m2m s)). split; [rewrite Ex; rewrite map_map; reflexivity|].
      clear. induction (ts_m2m s); constructor; [split; [reflexivity|apply Permutation_refl]|assumption]. }
    split; [exact K|]. intros h L. apply dget_In_unique; [apply (Permutation_NoDup (Permutation_sym (kp_columns _ _ _ K)) Nh)|]. rewrite Ex. apply in_app_iff. right.
    apply (sf_keys _ _ _ Sf) in L. apply in_map_iff in L. destruct L as (ka & <- & Ia). apply in_map_iff. exists ka. split; [|exact Ia]. do 2 f_equal. unfold listed, value_or_none. rewrite (Same r (or_introl eq_refl)). reflexivity.
Qed.
End Fit.

(** ** The tables of a group *)
Lemma group_items o ks g fs url items : keyed_tables W o = Ok ks -> load_group W (load_dtype W) false o = Ok g -> group_read sc expand env lim (with_fname g (norm url)) fs = Ok items -> names_fit ks ->
  Forall2 (fun k nr => fst nr = url_of k /\ forall r, In r (snd nr) -> tdict sc (columns k) r /\ NoDup (map fst r)) ks items.
Proof.
  intros Hk Hg Hi Nf. assert (F : Forall2 (fun k nr => fst nr = url_of k /\ all_rows (table_iter sc expand env lim (with_fname g (norm url)) fs (k_table k)) = Ok (snd nr)) ks items).
  { apply (items_for (with_fname g (norm url)) ks fs items); [cbn [with_fname gr_tables]; apply (group_loaded o); assumption|apply (nf_tables _ Nf)|exact Hi]. }
  assert (X : forall k, In k ks -> NoDup (map tc_header (columns k)) /\ forall c n, In c (columns k) -> tc_header c <> col_n (Some n)).
  { intros k Ik. split; [apply (nf_headers _ Nf k Ik)|]. intros c n. apply (nf_named _ Nf k c n Ik). }
  clear -F X. revert X. induction F as [|k nr ks items [E R] F IH]; intros X; [constructor|]. constructor; [|apply IH; intros k' I'; apply X; right; exact I'].
  split; [exact E|]. apply (rows_read _ fs k (snd nr) (or_intror (X k (or_introl eq_refl))) R).
Qed.
Lemma group_dtables o ks tables : keyed_tables W o = Ok ks -> db_tables bound_str o ks = Ok tables -> exists ds, Forall2 (table_for W) ds ks /\ schema true ds = Ok tables.
Proof.
  intros Hk Ht. unfold db_tables in Ht. apply bind_inv in Ht. destruct Ht as (ds & Ed & Sc). exists ds. split; [|exact Sc]. apply (tables_for W bound_str false (Some o) (group_tables o) ks Hk ds Ed).
Qed.
Lemma read_names o ks g : keyed_tables W o = Ok ks -> load_group W (load_dtype W) false o = Ok g -> NoDup (map url_of ks) -> map fst (tables_by_name g) = map url_of ks.
Proof. intros Hk Hg Nd. rewrite (by_name g ks (group_loaded o ks g Hk Hg) Nd), map_map. reflexivity. Qed.
End P.
