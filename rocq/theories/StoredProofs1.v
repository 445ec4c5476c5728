(** C71: the file that is written. *)
From Verif Require Import PyStr PyCsv Dsv DsvSpec DsvProofs DsvProofs2 DsvProofs4 NatLang Column ColumnProofs ColumnProofs2 Schema Table TableSpec TableProofs TableProofs2 TableProofs3 TableProofs4 TableProofs5 TableProofs6 QuietSpec QuietProofs QuietProofs2 Files FilesSpec Group GroupSpec StoredSpec.
From Coq Require Import Lia.
Local Open Scope nat_scope.
Section W.
Context {V : Type} (sc : scalars V) (expand : pystr -> dict V -> res pystr) (pv : pyver) (lim : N).
(** a row of texts is fine: read, and without warning *)
Definition fine (cols : list (tcol V)) (row : list pystr) : Prop :=
  length row = length (regular cols) /\ forall j c text, nth_error (regular cols) j = Some c -> nth_error row j = Some text -> cell_valid sc c text.
Lemma file_written strict before (t : data) : presentable sc pv lim t ->
  exists file R rows, writes sc pv lim strict before t file /\ reader_with_line_number lim (Some (da_dialect t)) kw0 file = Ok (R, None) /\
    map snd R = (if d_header (da_dialect t) then [colnames (da_cols t)] else []) ++ rows /\ forall row, In row rows -> fine (da_cols t) row.
Proof.
  intros [St _ Sep Qu]. destruct t as [nm d lang cols pk fks items]. cbn [da_name da_dialect da_lang da_cols da_pk da_fks da_items] in *.
  destruct St as ((dl & q & term & Hsane & Hnl) & Hdq & Hskip & Hke & _ & Hreg & Hdist & Hvr & Hcomp & Hsurv & Hok0).
  assert (Hok : forall rows, Forall2 (row_of sc cols) (map IDict items) rows -> cells_within lim (texts (header_rows d cols ++ rows)) /\ bom_safe d (header_rows d cols ++ rows)) by (intros r X; split; apply (Hok0 r X)). clear Hok0.
  assert (Hrows : exists rows, Forall2 (row_of sc cols) (map IDict items) rows).
  { clear -Hcomp Hsurv. induction items as [|kvs items IH]; [exists []; constructor|].
    destruct IH as (rows & I1); [intros; apply Hcomp; right; assumption|intros; eapply Hsurv; try right; eassumption|].
    destruct (row_exists sc cols kvs) as (cells & R1 & R2); [apply Hcomp; left; reflexivity|intros; eapply Hsurv; try left; eauto|].
    exists (cells :: rows). constructor; auto. }
  destruct Hrows as (rows & HF). destruct (Hok rows HF) as [Hlen Hbom].
  destruct (dialect_rows_roundtrip pv lim d dl q term _ Hsane Hdq Hnl Hlen Hbom) as (t & Ht & Hread).
  assert (E : map (map (skip_back d dl q)) (texts (header_rows d cols ++ rows)) = texts (header_rows d cols ++ rows)).
  { transitivity (map (fun r : list pystr => r) (texts (header_rows d cols ++ rows))); [|apply map_id].
    apply map_ext; intros r. transitivity (map (fun c : pystr => c) r); [|apply map_id]. apply map_ext; intros c. unfold skip_back; rewrite Hskip; reflexivity. }
  rewrite E in Hread. clear E. eexists t, _, (texts rows). split; [|split; [unfold reader_with_line_number; rewrite Hread; cbn [bind fst snd]; reflexivity|split]].
  - unfold writes. cbn [da_dialect da_cols da_items]. apply write_ok. split; [rewrite map_length; reflexivity|]. split; [|exists rows, t; auto].
    intros _ it Hit. apply in_map_iff in Hit. destruct Hit as (kvs & <- & Hin). cbn. intros (k & v & Hkv & Hno).
    destruct (Hcomp kvs Hin) as [_ Hk]. assert (X : In k (map fst kvs)) by (apply in_map_iff; exists (k, v); auto).
    apply Hk in X. destruct X as (c & C1 & C2 & C3). exact (Hno c C1 C2 C3).
  - cbn [fst]. rewrite map_map. cbn [snd]. transitivity (map snd (fst (reader_iter (Some d) (texts (header_rows d cols ++ rows))))); [reflexivity|]. rewrite (reader_iter_keeps d (texts (header_rows d cols ++ rows)) Hke). unfold texts. rewrite map_app. f_equal.
    unfold header_rows. destruct (d_header d); [|reflexivity]. cbn [map]. f_equal. unfold colnames, regular. rewrite map_map. apply map_ext. reflexivity.
  - clear -HF Hcomp Hsurv Qu Sep. revert rows HF. induction items as [|kvs items IH]; intros rows HF; inversion HF as [|? cells ? rows' Hr HF']; subst; cbn [texts map]; intros row Hin; [destruct Hin|].
    destruct Hin as [<-|Hin].
    + destruct Hr as [L Hr]. split; [rewrite map_length; exact L|]. intros j c text Hc Ht. rewrite nth_error_map in Ht.
      destruct (Hr j c Hc) as (v & x & Iv & Wx & Nx). rewrite Nx in Ht. cbn [option_map] in Ht. injection Ht as <-.
      pose proof (nth_error_In _ _ Hc) as Ic. apply regular_in in Ic. destruct Ic as [Ic Vc].
      destruct (complete_get cols kvs c (Hcomp kvs (or_introl eq_refl)) Ic Vc) as (v' & Ev). cbn [item_value] in Iv. rewrite Ev in Iv. subst v.
      split; [|exact (Qu kvs c v' x (or_introl eq_refl) Ic Vc Ev Wx)].
      destruct (Hsurv kvs c v' (or_introl eq_refl) Ic Vc Ev) as (x' & Wx' & Rx). rewrite Wx in Wx'. apply Ok_inj in Wx'. subst x'. exists v'.
      apply col_read_spec; [exact (Sep c Ic)|exact Rx].
    + apply (IH (fun k H => Hcomp k (or_intror H)) (fun k c v H => Hsurv k c v (or_intror H)) (fun k c v x H => Qu k c v x (or_intror H)) rows' HF' row Hin).
Qed.

Lemma regular_at (cols : list (tcol V)) j c : regular_first cols -> (j < length (regular cols)) -> (nth_error cols j = Some c <-> nth_error (regular cols) j = Some c).
Proof.
  intros H L. destruct (regular_firstn cols H) as (n & E & _). rewrite E in *. clear -L. revert j L. revert n. induction cols as [|a cols IH]; intros [|n] [|j] L; cbn [firstn length nth_error] in *; try lia; [reflexivity|]. apply IH. lia.
Qed.
(** such a file is valid *)
Lemma content_ok lang d (cols : list (tcol V)) R rows : regular_first cols -> (forall c, In c cols -> tc_virtual c = true -> tc_required c = false) ->
  (d_header d = true -> forall c, In c cols -> tc_virtual c = false -> header_fits lang (tc_col c) (tc_header c)) ->
  map snd R = (if d_header d then [colnames cols] else []) ++ rows -> (forall row, In row rows -> fine cols row) -> content_valid sc lang d cols R.
Proof.
  intros Rf Vr Hf E F.
  assert (Lc : length (colnames cols) = length (regular cols)) by (unfold colnames; apply map_length).
  assert (Nc : forall j h, nth_error (colnames cols) j = Some h <-> exists c, nth_error (regular cols) j = Some c /\ tc_header c = h).
  { intros j h. unfold colnames. rewrite nth_error_map. destruct (nth_error (regular cols) j) as [c|]; cbn [option_map]; split; [intros X; injection X as <-; eauto|intros (c' & X & <-); injection X as ->; reflexivity|discriminate|intros (c' & X & _); discriminate X]. }
  assert (Dv : forall data, map snd data = rows -> data_valid sc cols (colnames cols) data).
  { intros data Ed. split.
    - intros c Ic Rq. assert (Vc : tc_virtual c = false) by (destruct (tc_virtual c) eqn:X; [rewrite (Vr c Ic X) in Rq; discriminate|reflexivity]).
      destruct (In_nth_error (regular cols) c) as (j & Hj); [apply regular_in; auto|]. assert (Lj : j < length (regular cols)) by (apply nth_error_Some; congruence).
      exists j, c. split; [rewrite Lc; exact Lj|]. split; [exact (proj2 (regular_at cols j c Rf Lj) Hj)|reflexivity].
    - intros line row Hin. assert (Fr : fine cols row) by (apply F; rewrite <- Ed; apply (in_map snd) in Hin; exact Hin). destruct Fr as [Lr Fr]. split.
      + intros j c text Hj Hc Ht. rewrite Lc in Hj. apply (Fr j c text); [exact (proj1 (regular_at cols j c Rf Hj) Hc)|exact Ht].
      + intros j h c Hh Hc Rq. assert (Lj : j < length (regular cols)) by (rewrite <- Lc; apply nth_error_Some; congruence). exists j, h, c. split; [rewrite Lr; exact Lj|]. auto. }
  unfold content_valid. destruct (d_header d) eqn:Eh.
  - right. destruct R as [|[line hdr] data]; [discriminate E|]. cbn [map snd app] in E. injection E as -> Ed. exists line, (colnames cols), data. split; [reflexivity|]. split; [|exact (Dv data Ed)]. split.
    + right. apply colnames_short.
    + intros j h c Hh Hc. apply Nc in Hh. destruct Hh as (c' & Hc' & <-). assert (Lj : j < length (regular cols)) by (apply nth_error_Some; congruence).
      apply (regular_at cols j c Rf Lj) in Hc. rewrite Hc in Hc'. injection Hc' as <-. pose proof (nth_error_In _ _ Hc) as Ic. apply regular_in in Ic. destruct Ic. apply Hf; auto.
  - cbn [app] in E. exact (Dv R E).
Qed.

(** strict reading does not warn either *)
Lemma read_cells_still log line (cs : list (tcol V)) : forall row j d, length row = length cs ->
  (forall i c v, nth_error cs i = Some c -> nth_error row i = Some v -> col_noise (tc_st c) v = false) ->
  ro_warns (read_cells sc true log line j (map (fun c => (tc_header c, Some c)) cs) row d) = [].
Proof.
  induction cs as [|c cs IH]; intros [|v row] j d L H; try discriminate L; [reflexivity|]. cbn [map read_cells]. rewrite strict_flag, app_nil_r.
  rewrite (H 0 c v eq_refl eq_refl). assert (I : forall j d, ro_warns (read_cells sc true log line j (map (fun c => (tc_header c, Some c)) cs) row d) = []).
  { intros j' d'. apply IH; [injection L as L; exact L|]. intros i c' v' H1 H2. exact (H (S i) c' v' H1 H2). }
  destruct (fst (col_read sc true (tc_st c) v)) as [x|[]]; [|destruct log|..]; cbn [ro_push ro_stop ro_warns app]; try reflexivity; apply I.
Qed.
Lemma iter_still log (cols : list (tcol V)) endr data : regular cols <> [] ->
  (forall line row, In (line, row) data -> length row = length (regular cols) /\ forall i c v, nth_error (regular cols) i = Some c -> nth_error row i = Some v -> col_noise (tc_st c) v = false) ->
  io_warns (iter_rows sc expand true log cols (regular_hc cols) data endr) = [].
Proof.
  intros Ne. induction data as [|[line row] data IH]; intros H; [reflexivity|]. cbn [iter_rows].
  assert (Ee : ensure_cols (regular_hc cols) row = regular_hc cols) by (unfold ensure_cols, regular_hc; destruct (regular cols); [destruct Ne; reflexivity|reflexivity]). rewrite Ee.
  destruct (H line row (or_introl eq_refl)) as [L Q]. pose proof (read_cells_still log line (regular cols) row 0 [] L Q) as W. fold (regular_hc cols) in W.
  assert (P : ro_warns (process_row sc expand true log cols line (regular_hc cols) row) = []).
  { unfold process_row. destruct (ro_exn _); [exact W|]. destruct (_ && _); [exact W|]. destruct (add_virtual _ _ _ _); exact W. }
  destruct (ro_exn _); cbn [io_warns io_cons]; rewrite P; [reflexivity|]. apply IH. intros l r X. exact (H l r (or_intror X)).
Qed.
Lemma strict_still log lang d (cols : list (tcol V)) file R rows : regular_first cols -> (forall c, In c cols -> tc_virtual c = true -> tc_required c = false) -> (forall c, In c cols -> st_separator (tc_st c) <> Some []) ->
  reader_with_line_number lim (Some d) kw0 file = Ok (R, None) ->
  map snd R = (if d_header d then [colnames cols] else []) ++ rows -> (forall row, In row rows -> fine cols row) -> io_warns (iterdicts sc expand lim d lang true log cols file) = [].
Proof.
  intros Rf Vr Sep Hr E F. unfold iterdicts. rewrite Hr.
  assert (X : forall data, map snd data = rows -> io_warns (iter_data sc expand true log cols (colnames cols) [] data None) = []).
  { intros data Ed. unfold iter_data, header_cols. destruct (list_eq_dec str_eq_dec (colnames cols) (colnames cols)) as [_|Q]; [|congruence].
    cbn [orb]. rewrite (own_header_cols cols Rf). change (map (fun c => (tc_header c, Some c)) (regular cols)) with (regular_hc cols).
    destruct (missing_required _ _); [reflexivity|]. cbn [io_warns app].
    assert (G : forall line row, In (line, row) data -> length row = length (regular cols) /\ forall i c v, nth_error (regular cols) i = Some c -> nth_error row i = Some v -> col_noise (tc_st c) v = false).
    { intros line row Hin. apply (in_map snd) in Hin. rewrite Ed in Hin. destruct (F _ Hin) as [L Q]. split; [exact L|]. intros i c v H1 H2. destruct (Q i c v H1 H2) as [_ K]. apply not_true_iff_false. intros Y. apply K. apply noise_iff; [apply Sep; exact (proj1 (proj1 (regular_in cols c) (nth_error_In _ _ H1)))|exact Y]. }
    destruct (regular cols) as [|c0 cs] eqn:Er.
    - unfold regular_hc. rewrite Er. cbn [map]. clear -G. induction data as [|[line row] data IH]; [reflexivity|]. destruct (G line row (or_introl eq_refl)) as [L _]. destruct row; [|discriminate L].
      cbn [iter_rows ensure_cols length seq map]. assert (P : ro_warns (process_row sc expand true log cols line [] []) = []).
      { unfold process_row. cbn [read_cells ro_exn]. destruct (_ && _); [reflexivity|]. destruct (add_virtual _ _ _ _); reflexivity. }
      destruct (ro_exn _); cbn [io_warns io_cons]; rewrite P; [reflexivity|]. apply IH. intros l r X. exact (G l r (or_intror X)).
    - apply iter_still; [rewrite Er; discriminate|]. intros line row Hin. rewrite Er. exact (G line row Hin). }
  destruct (d_header d).
  - destruct R as [|[line hdr] data]; [reflexivity|]. cbn [map snd app] in E. injection E as -> Ed. exact (X data Ed).
  - cbn [app] in E. exact (X R E).
Qed.
End W.
