(** Proofs about reading tables: C28, C29, C30. *)
From Verif Require Import PyStr PyCsv Dsv DsvSpec DsvProofs4 Column ColumnProofs2 Schema Table TableSpec TableProofs TableProofs2.
From Coq Require Import Lia.

Section P.
Context {V : Type} (sc : scalars V) (expand : pystr -> dict V -> res pystr).
Implicit Types (c : tcol V) (d : dict V).
Notation hcs := (list (pystr * option (tcol V))).

Definition pkey (p : pystr * option (tcol V) * pystr) : pystr := entry_key (fst p).
Definition pval (p : pystr * option (tcol V) * pystr) : res (pyval V) :=
  match snd (fst p) with Some c => fst (col_read sc true (tc_st c) (snd p)) | None => Ok (POne (s_str sc (snd p))) end.
Lemma cells_dict_cons p ps d : cells_dict sc (p :: ps) d =
  match pval p with Ok x => cells_dict sc ps (dset str_eqb d (pkey p) x) | Err _ => cells_dict sc ps d end.
Proof. destruct p as [[h [c|]] v]; cbn; [|reflexivity]. unfold pval. cbn. destruct (fst (col_read sc true (tc_st c) v)); reflexivity. Qed.
Lemma cells_dict_other ps : forall d k, ~ In k (map pkey ps) -> dget str_eqb (cells_dict sc ps d) k = dget str_eqb d k.
Proof.
  induction ps as [|p ps IH]; intros d k H; [reflexivity|]. rewrite cells_dict_cons. cbn in H.
  destruct (pval p); rewrite IH by tauto; [|reflexivity]. apply dget_dset_other. intros ->. tauto.
Qed.
Lemma cells_dict_get ps : forall d p, NoDup (map pkey ps) -> In p ps ->
  dget str_eqb (cells_dict sc ps d) (pkey p) = match pval p with Ok x => Some x | Err _ => dget str_eqb d (pkey p) end.
Proof.
  induction ps as [|q ps IH]; intros d p Hn Hin; [destruct Hin|].
  cbn in Hn. apply NoDup_cons_iff in Hn. destruct Hn as [Hq Hn]. rewrite cells_dict_cons. destruct Hin as [->|Hin].
  - destruct (pval p); rewrite cells_dict_other by exact Hq; [apply dget_dset_same|reflexivity].
  - assert (pkey p <> pkey q) by (intros E; apply Hq; rewrite <- E; apply in_map; exact Hin).
    destruct (pval q); rewrite (IH _ p Hn Hin); [|reflexivity]. rewrite dget_dset_other by assumption. reflexivity.
Qed.
Lemma cells_dict_perm ps ps' : NoDup (map pkey ps) -> Permutation ps ps' -> same_mapping (cells_dict sc ps []) (cells_dict sc ps' []).
Proof.
  intros Hn Hp k. assert (Hn' : NoDup (map pkey ps')) by (eapply Permutation_NoDup; [apply Permutation_map; exact Hp|exact Hn]).
  destruct (in_dec str_eq_dec k (map pkey ps)) as [Hin|Hout].
  - apply in_map_iff in Hin. destruct Hin as (p & <- & Hin). rewrite (cells_dict_get ps [] p Hn Hin).
    rewrite (cells_dict_get ps' [] p Hn' (Permutation_in _ Hp Hin)). reflexivity.
  - rewrite cells_dict_other by exact Hout. rewrite cells_dict_other; [reflexivity|].
    intros H. apply Hout. eapply Permutation_in; [apply Permutation_map; apply Permutation_sym; exact Hp|exact H].
Qed.

Lemma setdefault_get ks : forall d k, dget str_eqb (setdefault_all d ks) k =
  match dget str_eqb d k with Some v => Some v | None => if str_mem k ks then Some PNone else None end.
Proof.
  induction ks as [|a ks IH]; intros d k; [cbn; destruct (dget str_eqb d k); reflexivity|].
  change (setdefault_all d (a :: ks)) with (setdefault_all (match dget str_eqb d a with Some _ => d | None => dset str_eqb d a PNone end) ks).
  rewrite IH. cbn [str_mem existsb]. fold (str_mem k ks). destruct (dget str_eqb d a) eqn:Ea.
  - destruct (dget str_eqb d k) eqn:Ek; [reflexivity|]. destruct (str_eqb k a) eqn:E; [|reflexivity].
    apply str_eqb_eq in E. subst a. congruence.
  - rewrite dget_dset_s. destruct (str_eqb k a) eqn:E.
    + apply str_eqb_eq in E. subst a. rewrite Ea. reflexivity.
    + reflexivity.
Qed.
Lemma setdefault_same d d' ks : same_mapping d d' -> same_mapping (setdefault_all d ks) (setdefault_all d' ks).
Proof. intros H k. rewrite !setdefault_get, (H k). reflexivity. Qed.
Lemma add_virtual_get vs : forall d d' k, add_virtual sc expand d vs = Ok d' -> ~ In k (map fst vs) ->
  dget str_eqb d' k = dget str_eqb d k.
Proof.
  induction vs as [|[a u] vs IH]; intros d d' k H Hk; cbn in H; [injection H as ->; reflexivity|].
  destruct (expand u d) as [s|]; [|discriminate]. cbn [bind] in H. cbn in Hk.
  rewrite (IH _ _ k H) by tauto. apply dget_dset_other. intros ->. tauto.
Qed.
Lemma add_virtual_not_none vs : forall d d' k, add_virtual sc expand d vs = Ok d' ->
  (has_key d k -> has_key d' k) /\ (dget str_eqb d' k = Some PNone -> dget str_eqb d k = Some PNone).
Proof.
  induction vs as [|[a u] vs IH]; intros d d' k H; cbn in H; [injection H as ->; auto|].
  destruct (expand u d) as [s|]; [|discriminate]. cbn [bind] in H. destruct (IH _ _ k H) as [I1 I2].
  unfold has_key in *. rewrite dget_dset_s in I1, I2. destruct (str_eqb k a); [|auto].
  split; [intros _; apply I1; discriminate|]. intros E. apply I2 in E. discriminate.
Qed.
Lemma add_virtual_same vs : expands expand -> forall d1 d2 d1', same_mapping d1 d2 -> add_virtual sc expand d1 vs = Ok d1' ->
  exists d2', add_virtual sc expand d2 vs = Ok d2' /\ same_mapping d1' d2'.
Proof.
  intros [X1 X2]. induction vs as [|[a u] vs IH]; intros d1 d2 d1' Hs H; cbn in *; [injection H as <-; eauto|].
  rewrite <- (X2 u d1 d2 Hs). destruct (expand u d1) as [s|]; [|discriminate]. cbn [bind] in *.
  eapply IH; [|exact H]. intros k. rewrite !dget_dset_s, (Hs k). reflexivity.
Qed.

(** ** entries of the header occur once *)
Lemma entry_keys_nodup cols hdr (hc : hcs) : matched cols hdr hc -> each_once hc -> NoDup (map entry_key hc).
Proof.
  intros (M1 & M2 & M3) (O1 & O2). apply NoDup_nth_error. intros i j Hi E. rewrite map_length in Hi.
  rewrite !nth_error_map in E. destruct (nth_error hc i) as [[k oc]|] eqn:Ei; [|apply nth_error_Some in Ei; [destruct Ei|exact Hi]].
  destruct (nth_error hc j) as [[k' oc']|] eqn:Ej; [|discriminate]. cbn in E. injection E as E.
  unfold entry_key in E. cbn in E. destruct oc as [c|], oc' as [c'|].
  - eapply O2; eassumption.
  - exfalso. apply nth_error_In in Ei, Ej. destruct (M2 _ _ Ei) as (C1 & _). apply (M3 _ Ej c C1). left. symmetry. exact E.
  - exfalso. apply nth_error_In in Ei, Ej. destruct (M2 _ _ Ej) as (C1 & _). apply (M3 _ Ei c' C1). left. exact E.
  - subst k'. eapply (nodup_nth (map fst hc)); [exact O1| |]; rewrite nth_error_map, ?Ei, ?Ej; reflexivity.
Qed.
Lemma map_pkey_combine (hc : hcs) row : map pkey (combine hc row) = firstn (length row) (map entry_key hc).
Proof. revert row; induction hc as [|e hc IH]; intros [|v row]; cbn; [reflexivity..|]. rewrite IH. reflexivity. Qed.
Lemma firstn_nodup {A} n (l : list A) : NoDup l -> NoDup (firstn n l).
Proof.
  revert n; induction l as [|a l IH]; intros n H; [rewrite firstn_nil; constructor|]. destruct n; [constructor|]. cbn.
  apply NoDup_cons_iff in H. destruct H as [Ha H]. constructor; [|apply IH; exact H].
  intros Hin. apply Ha. rewrite <- (firstn_skipn n l). apply in_or_app. left. exact Hin.
Qed.
Lemma nth_error_combine {A B} (l : list A) (l' : list B) i a b :
  nth_error l i = Some a -> nth_error l' i = Some b -> nth_error (combine l l') i = Some (a, b).
Proof.
  revert l' i; induction l as [|x l IH]; intros [|y l'] [|i] Ha Hb; try discriminate; cbn in *; [congruence|]. apply IH; assumption.
Qed.
Lemma nth_error_combine_inv {A B} (l : list A) (l' : list B) i a b :
  nth_error (combine l l') i = Some (a, b) -> nth_error l i = Some a /\ nth_error l' i = Some b.
Proof.
  revert l' i; induction l as [|x l IH]; intros [|y l'] [|i] H; try discriminate; cbn in *; [injection H as -> ->; auto|]. apply IH; assumption.
Qed.

(** ** the dict of a good row *)
Lemma row_reads_ok cols hdr (hc : hcs) row dd : matched cols hdr hc -> each_once hc ->
  (forall j, ~ cell_error sc hc row j) -> only_value_errors sc hc row ->
  row_final sc expand cols hc row = Ok dd -> row_reads sc cols hc row dd.
Proof.
  intros Hm Ho Hg Hv Hf. assert (Hn : NoDup (map pkey (combine hc row))).
  { rewrite map_pkey_combine. apply firstn_nodup. eapply entry_keys_nodup; eassumption. }
  unfold row_final in Hf. split; [|split].
  - intros j k c v Hj Hr Hnv. pose proof (nth_error_combine _ _ _ _ _ Hj Hr) as Hp. apply nth_error_In in Hp.
    destruct (fst (col_read sc true (tc_st c) v)) as [x|e] eqn:E.
    + exists x. split; [reflexivity|]. rewrite (add_virtual_get _ _ _ _ Hf Hnv), setdefault_get.
      pose proof (cells_dict_get _ [] _ Hn Hp) as G. unfold pkey, pval in G. cbn in G. rewrite E in G. rewrite G. reflexivity.
    + exfalso. apply (Hg j). exists k, c, v. rewrite (Hv j k c v e Hj Hr E) in E. auto.
  - intros j k v Hj Hr Hnv. pose proof (nth_error_combine _ _ _ _ _ Hj Hr) as Hp. apply nth_error_In in Hp.
    rewrite (add_virtual_get _ _ _ _ Hf Hnv), setdefault_get.
    pose proof (cells_dict_get _ [] _ Hn Hp) as G. unfold pkey, pval in G. cbn in G. rewrite G. reflexivity.
  - intros c Hc Hreg Hnv H1 H2. rewrite (add_virtual_get _ _ _ _ Hf Hnv), setdefault_get.
    rewrite cells_dict_other.
    + cbn [dget]. replace (str_mem (tc_header c) (colnames cols)) with true; [reflexivity|]. symmetry. apply str_mem_In.
      unfold colnames, regular. apply in_map. apply filter_In. rewrite Hreg. auto.
    + intros Hin. apply in_map_iff in Hin. destruct Hin as ([[k oc] v] & E & Hin). apply In_nth_error in Hin. destruct Hin as [j Hj].
      apply nth_error_combine_inv in Hj. destruct Hj as [Hj Hr]. assert (j < length row)%nat by (apply nth_error_Some; congruence).
      unfold pkey, entry_key in E. cbn in E. destruct oc as [c'|]; [eapply H1|eapply H2]; eassumption.
Qed.

(** ** C28 *)
Section C28.
Variables (lim : N) (dl : dialect) (lang : pystr) (cols : list (tcol V)) (file : pystr).
Lemma iterdicts_data rows endr hdr data log :
  reader_with_line_number lim (Some dl) kw0 file = Ok (rows, endr) -> header_and_data dl cols rows hdr data ->
  iterdicts sc expand lim dl lang true log cols file = iter_data sc expand true log cols hdr [] data endr.
Proof.
  intros H1 H2. unfold iterdicts. rewrite H1. unfold header_and_data in H2. destruct (d_header dl).
  - destruct H2 as [l ->]. reflexivity.
  - destruct H2 as [-> ->]. reflexivity.
Qed.
Definition io_same (o o' : iterout (V:=V)) : Prop := io_rows o = io_rows o' /\ io_msgs o = io_msgs o' /\ io_end o = io_end o'.
Lemma iter_data_ok hdr data endr log hc : header_cols true cols hdr = Ok hc -> required_present cols hc ->
  io_same (iter_data sc expand true log cols hdr [] data endr) (iter_rows sc expand true log cols hc data endr).
Proof.
  intros H1 H2. unfold iter_data. rewrite H1. rewrite (proj2 (missing_required_iff cols hc) H2). cbn. repeat split.
Qed.

Lemma yields_sel hc data : total_expand expand -> (forall lr, In lr data -> only_value_errors sc hc (snd lr)) -> coherent hc ->
  exists good, Selected (fun lr => row_good sc hc (snd lr)) data good
  /\ Forall2 (fun lr y => fst y = fst lr /\ row_final sc expand cols hc (snd lr) = Ok (snd y)) good (flat_map (yields sc expand cols hc) data).
Proof.
  intros Hx. induction data as [|lr data IH]; intros Hv Hc.
  - exists []. split; constructor.
  - destruct IH as (good & G1 & G2); [intros x Hx'; apply Hv; right; exact Hx'|exact Hc|].
    pose proof (row_good_iff sc (fst lr) hc (snd lr) (Hv lr (or_introl eq_refl)) Hc) as Hg.
    destruct (add_virtual_total sc expand Hx (virtualcols cols) (setdefault_all (cells_dict sc (combine hc (snd lr)) []) (colnames cols))) as [dd Hd].
    cbn [flat_map]. unfold yields at 1. unfold row_final at 2. rewrite Hd.
    destruct (row_msgs sc (fst lr) hc (snd lr)) eqn:E.
    + exists (lr :: good). split; [constructor; [apply Hg; reflexivity|exact G1]|]. cbn [app]. constructor; [|exact G2].
      split; [reflexivity|exact Hd].
    + exists good. split; [constructor; [|exact G1]|exact G2]. intros X. apply Hg in X. discriminate.
Qed.

Theorem log_theorem rows endr hdr data :
  reader_with_line_number lim (Some dl) kw0 file = Ok (rows, endr) -> header_and_data dl cols rows hdr data ->
  hdr <> [] -> regular_first cols -> titles_readable cols -> (forall u d, exists s, expand u d = Ok s) ->
  exists hc, matched cols hdr hc /\
  (each_once hc -> required_present cols hc -> (forall lr, In lr data -> only_value_errors sc hc (snd lr)) ->
   let o := iterdicts sc expand lim dl lang true true cols file in
   let o' := iterdicts sc expand lim dl lang true false cols file in
   (* with a log *)
   io_end o = endr
   /\ (exists good, Selected (fun lr => row_good sc hc (snd lr)) data good
       /\ Forall2 (fun lr y => fst y = fst lr /\ row_reads sc cols hc (snd lr) (snd y)) good (io_rows o))
   /\ (exists mss, Forall2 (fun lr ms => row_messages sc hc (fst lr) (snd lr) ms) data mss /\ io_msgs o = concat mss)
   (* without *)
   /\ io_msgs o' = []
   /\ ((forall lr, In lr data -> row_good sc hc (snd lr)) -> io_end o' = endr /\ io_rows o' = io_rows o)
   /\ (forall pre bad post, data = pre ++ bad :: post -> (forall lr, In lr pre -> row_good sc hc (snd lr)) ->
        ~ row_good sc hc (snd bad) -> io_end o' = Some ValueError
        /\ Forall2 (fun lr y => fst y = fst lr /\ row_reads sc cols hc (snd lr) (snd y)) pre (io_rows o')
        /\ exists more, io_rows o = io_rows o' ++ more)).
Proof.
  intros Hread Hhd Hne Hreg Htit Hx. destruct (header_cols_strict cols hdr Hreg Htit) as (hc & Hhc & Hm).
  exists hc. split; [exact Hm|]. intros Hone Hreq Hv o o'.
  assert (Hnn : hc <> []). { destruct Hm as [M1 _]. intros ->. apply Hne. symmetry. exact M1. }
  pose proof (each_once_coherent cols hdr hc Hm Hone) as Hc.
  pose proof (iter_data_ok hdr data endr true hc Hhc Hreq) as (A1 & A2 & A3).
  pose proof (iter_data_ok hdr data endr false hc Hhc Hreq) as (B1 & B2 & B3).
  assert (Eo : o = iter_data sc expand true true cols hdr [] data endr) by (eapply iterdicts_data; eassumption).
  assert (Eo' : o' = iter_data sc expand true false cols hdr [] data endr) by (eapply iterdicts_data; eassumption).
  clearbody o o'. subst o o'. rewrite A1, A2, A3, B1, B2, B3.
  destruct (iter_log sc expand cols hc endr data Hnn Hx Hv) as (L1 & L2 & L3).
  destruct (iter_nolog sc expand cols hc endr data Hnn Hx Hv) as (N1 & N2 & N3).
  assert (Hreads : forall good ys, (forall lr, In lr good -> row_good sc hc (snd lr) /\ only_value_errors sc hc (snd lr)) ->
     Forall2 (fun lr (y : nat * dict V) => fst y = fst lr /\ row_final sc expand cols hc (snd lr) = Ok (snd y)) good ys ->
     Forall2 (fun lr (y : nat * dict V) => fst y = fst lr /\ row_reads sc cols hc (snd lr) (snd y)) good ys).
  { intros good ys Hg H. induction H as [|lr y good ys [H1 H2] H IH]; [constructor|]. constructor.
    - split; [exact H1|]. destruct (Hg lr (or_introl eq_refl)) as [G1 G2].
      eapply row_reads_ok; try eassumption. intros j. apply G1.
    - apply IH. intros x Hx'. apply Hg. right. exact Hx'. }
  assert (Hsel : forall data0 good0, Selected (fun lr : nat * list pystr => row_good sc hc (snd lr)) data0 good0 ->
     (forall lr, In lr data0 -> only_value_errors sc hc (snd lr)) -> forall lr, In lr good0 -> row_good sc hc (snd lr) /\ only_value_errors sc hc (snd lr)).
  { intros data0 good0 H. induction H as [|x l l' Hp H IH|x l l' Hp H IH]; intros Hv0 lr Hin; [destruct Hin| |].
    - destruct Hin as [<-|Hin]; [split; [exact Hp|apply Hv0; left; reflexivity]|]. apply IH; [|exact Hin]. intros y Hy. apply Hv0. right. exact Hy.
    - apply IH; [|exact Hin]. intros y Hy. apply Hv0. right. exact Hy. }
  split; [exact L1|]. split; [|split; [|split; [exact N1|split]]].
  - rewrite L2. destruct (yields_sel hc data Hx Hv Hc) as (good & G1 & G2). exists good. split; [exact G1|].
    apply Hreads; [|exact G2]. eapply Hsel; eassumption.
  - rewrite L3. exists (map (fun lr => row_msgs sc (fst lr) hc (snd lr)) data). split; [|apply flat_map_concat_map].
    clear -Hv Hc. induction data as [|lr data IH]; [constructor|]. constructor.
    + apply row_messages_ok; [apply Hv; left; reflexivity|exact Hc].
    + apply IH. intros x Hx. apply Hv. right. exact Hx.
  - intros Hg. rewrite L2. apply N2. intros lr Hlr. apply row_good_iff; auto.
  - intros pre bad post E Hpre Hbad. subst data.
    destruct (N3 pre bad post eq_refl) as [J1 J2].
    { intros lr Hlr. apply row_good_iff; auto. apply Hv. apply in_or_app. left. exact Hlr. }
    { intros X. apply Hbad. eapply row_good_iff; [|exact Hc|exact X]. apply Hv. apply in_or_app. right. left. reflexivity. }
    split; [exact J1|]. rewrite J2, L2. split.
    + assert (Hvp : forall lr, In lr pre -> only_value_errors sc hc (snd lr)) by (intros lr Hlr; apply Hv; apply in_or_app; left; exact Hlr).
      destruct (yields_sel hc pre Hx Hvp Hc) as (good & G1 & G2).
      assert (good = pre).
      { clear -G1 Hpre. induction G1 as [|x l l' Hp H IH|x l l' Hp H IH]; [reflexivity| |].
        - f_equal. apply IH. intros lr Hlr. apply Hpre. right. exact Hlr.
        - exfalso. apply Hp. apply Hpre. left. reflexivity. }
      subst good. apply Hreads; [|exact G2]. intros lr Hlr. split; [apply Hpre; exact Hlr|apply Hvp; exact Hlr].
    + rewrite flat_map_app. eexists. reflexivity.
Qed.
End C28.

(** the same rows from a file without the bad ones *)
Theorem without_bad_rows lim dl lang (cols : list (tcol V)) file file' rows rows' endr endr' hdr data data' :
  reader_with_line_number lim (Some dl) kw0 file = Ok (rows, endr) -> header_and_data dl cols rows hdr data ->
  reader_with_line_number lim (Some dl) kw0 file' = Ok (rows', endr') -> header_and_data dl cols rows' hdr data' ->
  hdr <> [] -> regular_first cols -> titles_readable cols -> (forall u d, exists s, expand u d = Ok s) ->
  exists hc, matched cols hdr hc /\
  (each_once hc -> required_present cols hc -> (forall lr, In lr data -> only_value_errors sc hc (snd lr)) ->
   forall good, Selected (fun lr => row_good sc hc (snd lr)) data good -> map snd data' = map snd good ->
   map snd (io_rows (iterdicts sc expand lim dl lang true true cols file)) =
   map snd (io_rows (iterdicts sc expand lim dl lang true true cols file'))).
Proof.
  intros Hread Hhd Hread' Hhd' Hne Hreg Htit Hx. destruct (header_cols_strict cols hdr Hreg Htit) as (hc & Hhc & Hm).
  exists hc. split; [exact Hm|]. intros Hone Hreq Hv good Hsel Heq.
  assert (Hnn : hc <> []). { destruct Hm as [M1 _]. intros ->. apply Hne. symmetry. exact M1. }
  pose proof (each_once_coherent cols hdr hc Hm Hone) as Hc.
  rewrite (iterdicts_data lim dl lang cols file _ _ _ _ true Hread Hhd), (iterdicts_data lim dl lang cols file' _ _ _ _ true Hread' Hhd').
  rewrite (proj1 (iter_data_ok cols hdr data endr true hc Hhc Hreq)), (proj1 (iter_data_ok cols hdr data' endr' true hc Hhc Hreq)).
  assert (Hv' : forall lr, In lr data' -> only_value_errors sc hc (snd lr)).
  { intros lr Hlr. apply (in_map snd) in Hlr. rewrite Heq in Hlr. apply in_map_iff in Hlr. destruct Hlr as (lr0 & E & Hin). rewrite <- E.
    apply Hv. clear -Hsel Hin. induction Hsel as [|x l l' Hp H IH|x l l' Hp H IH]; [destruct Hin| |right; auto].
    destruct Hin as [<-|Hin]; [left; reflexivity|right; auto]. }
  destruct (iter_log sc expand cols hc endr data Hnn Hx Hv) as (_ & -> & _).
  destruct (iter_log sc expand cols hc endr' data' Hnn Hx Hv') as (_ & -> & _).
  assert (G : forall l, map snd (flat_map (yields sc expand cols hc) l) = flat_map (fun row => match row_msgs sc 0 hc row, row_final sc expand cols hc row with [], Ok d => [d] | _, _ => [] end) (map snd l)).
  { induction l as [|lr l IH]; [reflexivity|]. cbn [flat_map map]. rewrite map_app, IH. f_equal. unfold yields.
    assert (E : forall n, cells_msgs sc n 0 hc (snd lr) = [] <-> cells_msgs sc 0 0 hc (snd lr) = []).
    { intros n. generalize (snd lr). generalize 0%nat at 1 3. clear. induction hc as [|[k [c|]] hc IH]; intros j [|v row]; cbn; try tauto.
      - destruct (fst (col_read sc true (tc_st c) v)); [apply IH|split; discriminate].
      - apply IH. }
    assert (E2 : forall n d, missing_cells n hc (snd lr) d = [] <-> missing_cells 0 hc (snd lr) d = []).
    { intros n d. unfold missing_cells. induction (required_keys hc) as [|kj l0 IHl]; cbn; [tauto|].
      destruct (str_mem (fst kj) (seen_keys hc (length (snd lr)))); [exact IHl|].
      destruct (dget str_eqb d (fst kj)); [exact IHl|]. split; discriminate. }
    assert (E3 : row_msgs sc (fst lr) hc (snd lr) = [] <-> row_msgs sc 0 hc (snd lr) = []).
    { unfold row_msgs. split; intros H; apply app_eq_nil in H; destruct H as [H1 H2].
      - rewrite (proj1 (E _) H1), (proj1 (E2 _ _) H2). reflexivity.
      - rewrite (proj2 (E _) H1), (proj2 (E2 _ _) H2). reflexivity. }
    destruct (row_msgs sc (fst lr) hc (snd lr)) eqn:X1, (row_msgs sc 0 hc (snd lr)) eqn:X2; try reflexivity.
    - destruct (row_final sc expand cols hc (snd lr)); reflexivity.
    - exfalso. destruct E3 as [E3 _]. specialize (E3 eq_refl). discriminate.
    - exfalso. destruct E3 as [_ E3]. specialize (E3 eq_refl). discriminate. }
  rewrite (G data), (G data'), Heq. clear -Hsel Hv Hc. induction Hsel as [|lr l l' Hp H IH|lr l l' Hp H IH].
  - reflexivity.
  - cbn. f_equal. apply IH. intros x Hx. apply Hv. right. exact Hx.
  - cbn [map flat_map]. rewrite IH by (intros x Hx; apply Hv; right; exact Hx).
    destruct (row_msgs sc 0 hc (snd lr)) eqn:E; [|reflexivity].
    exfalso. apply Hp. eapply row_good_iff; [apply Hv; left; reflexivity|exact Hc|exact E].
Qed.
End P.
