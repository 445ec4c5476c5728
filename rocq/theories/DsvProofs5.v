(** Proofs about rewrite, add_rows and filter_rows_as_dict (C07, C08, C09). *)
From Verif Require Import PyStr PyCsv PyCsvProofs PyCsvRound Dsv DsvSpec DsvProofs DsvProofs2 DsvProofs4.

Lemma move_clears_tmp same s content : tmp (exec s (move_events same content)) = None.
Proof.
  unfold move_events; destruct same; [reflexivity|].
  change (TruncMain :: map (fun c => AppendMain [c]) content ++ [UnlinkTmp])
    with ((TruncMain :: map (fun c => AppendMain [c]) content) ++ [UnlinkTmp]).
  rewrite exec_app. reflexivity.
Qed.

(** *** C07, the result *)
Theorem rewrite_result {S} pv lim same d kw (visitor : S -> nat -> list pystr -> res (S * option (list cell)))
  v0 file es v' :
  rewrite pv lim same d kw visitor v0 (Some file) = (es, Ok v') ->
  exists rows outs new,
    unicode_reader lim d kw file = Ok (rows, None)
    /\ visit_all visitor v0 0 rows = Ok (v', outs)
    /\ write_file pv lim d kw outs = Ok new
    /\ exec {| main := Some file; tmp := None |} es = {| main := Some new; tmp := None |}.
Proof.
  intros H. destruct (rewrite_ok pv lim same d kw visitor v0 file es v' H)
    as (rows & outs & new & writes & H1 & H2 & H3 & H4 & -> & H5 & H6).
  exists rows, outs, new. repeat split; try assumption.
  destruct (exec _ (writes ++ move_events same new)) as [m t] eqn:E. cbn [main] in H4. subst m.
  f_equal. change t with (tmp {| main := Some new; tmp := t |}). rewrite <- E, exec_app. apply move_clears_tmp.
Qed.

Lemma visit_rows_complete {S} pv (visitor : S -> nat -> list pystr -> res (S * option (list cell))) rows :
  forall w v i v' outs t,
  visit_all visitor v i rows = Ok (v', outs) ->
  wrows pv (w_fmt w) (map (map (src_cell (w_kw w))) outs) = Ok t ->
  exists parts w', visit_rows pv visitor w v i rows None = (parts, Ok (v', w')).
Proof.
  induction rows as [|row rows IH]; intros w v i v' outs t H Ht; cbn [visit_all visit_rows] in *.
  - injection H as -> <-. eexists _, _; reflexivity.
  - destruct (visitor v i row) as [[v1 o]|]; cbn [bind fst snd] in H; [|discriminate].
    destruct (visit_all visitor v1 (i + 1) rows) as [[v2 outs2]|] eqn:Ev; cbn [bind fst snd] in H; [|discriminate].
    injection H as -> <-. destruct o as [out|].
    + cbn [map wrows] in Ht.
      destruct (wrow pv (w_fmt w) (map (src_cell (w_kw w)) out)) as [a|] eqn:Ea; cbn [bind] in Ht; [|discriminate].
      destruct (wrows pv (w_fmt w) (map (map (src_cell (w_kw w))) outs2)) as [b|] eqn:Eb; cbn [bind] in Ht; [|discriminate].
      unfold writerow.
      change (map (fun c => cell_str (escapedoubled (w_kw w) c)) out) with (map (src_cell (w_kw w)) out).
      rewrite Ea. cbn [bind].
      edestruct (IH {| w_kw := w_kw w; w_fmt := w_fmt w; w_out := w_out w ++ a; w_rows := Datatypes.S (w_rows w) |})
        as (parts & w' & E); [exact Ev|exact Eb|].
      rewrite E. eexists _, _; reflexivity.
    + eapply IH; [exact Ev|exact Ht].
Qed.

(** it succeeds whenever the file can be read, the visitor never raises and its
    results can be written *)
Theorem rewrite_succeeds {S} pv lim same d kw (visitor : S -> nat -> list pystr -> res (S * option (list cell)))
  v0 file rows v' outs new :
  unicode_reader lim d kw file = Ok (rows, None) ->
  visit_all visitor v0 0 rows = Ok (v', outs) ->
  write_file pv lim d kw outs = Ok new ->
  exists es, rewrite pv lim same d kw visitor v0 (Some file) = (es, Ok v').
Proof.
  intros H1 H2 H3. unfold rewrite. rewrite H1.
  unfold write_file in H3. destruct (writer_open lim d kw) as [w|] eqn:Ew; [|discriminate].
  assert (Hw := writerows_list pv w outs 0). unfold writerows in H3.
  destruct (wrows pv (w_fmt w) (map (map (src_cell (w_kw w))) outs)) as [t|e] eqn:Et.
  - destruct (visit_rows_complete pv visitor rows w v0 0%nat v' outs t H2 Et) as (parts & w' & E).
    cbn [fst snd]. rewrite E. cbn [fst snd]. eexists; reflexivity.
  - destruct (writerows_from pv 0 w (map RList outs)) as [w' o]. cbn in Hw. subst o. discriminate.
Qed.

(** *** C07, crash points *)
Lemma app_prefix_split {A} (a b x y : list A) : a ++ b = x ++ y ->
  (exists c, x = a ++ c) \/ (exists c, a = x ++ c /\ c <> [] /\ y = c ++ b).
Proof.
  revert x; induction a as [|h a IH]; intros x H; [left; eexists; reflexivity|].
  destruct x as [|h' x].
  - right. exists (h :: a). cbn in *. repeat split; [discriminate|]. symmetry; exact H.
  - cbn in H. injection H as -> H. destruct (IH x H) as [[c ->]|(c & -> & Hc & ->)].
    + left; exists c; reflexivity.
    + right; exists c. repeat split; assumption.
Qed.

Lemma rewrite_err_tmp_only {S} pv lim same d kw (visitor : S -> nat -> list pystr -> res (S * option (list cell)))
  v0 file es e :
  rewrite pv lim same d kw visitor v0 file = (es, Err e) -> forallb tmp_only es = true.
Proof.
  unfold rewrite. destruct file as [t|]; [|intros H; injection H as <- _; reflexivity].
  destruct (unicode_reader lim d kw t) as [rows|]; [|intros H; injection H as <- _; reflexivity].
  destruct (writer_open lim d kw) as [w|]; [|intros H; injection H as <- _; reflexivity].
  destruct (visit_rows pv visitor w v0 0 (fst rows) (snd rows)) as [parts [[v w']|e']]; cbn [fst snd];
    intros H; [discriminate|]. injection H as <- _.
  assert (Hat : forall ps, forallb tmp_only (map AppendTmp ps) = true)
    by (induction ps; [reflexivity|assumption]).
  cbn [app forallb tmp_only andb]. rewrite forallb_app, Hat, andb_true_r.
  destruct (writer_adds_bom d); [|reflexivity]. destruct (concat parts); reflexivity.
Qed.

(** an exception from the reader, the visitor or the writer: at no point was the file touched *)
Theorem rewrite_failure_safe {S} pv lim same d kw (visitor : S -> nat -> list pystr -> res (S * option (list cell)))
  v0 file es e :
  rewrite pv lim same d kw visitor v0 file = (es, Err e) ->
  forall done rest, es = done ++ rest ->
  main (exec {| main := file; tmp := None |} done) = file.
Proof.
  intros H done rest ->. apply rewrite_err_tmp_only in H. apply tmp_only_prefix in H.
  rewrite tmp_only_leaves by exact H. reflexivity.
Qed.

(** crash at any point, temporary directory on the same file system: old or complete new content *)
Theorem rewrite_crash_safe {S} pv lim d kw (visitor : S -> nat -> list pystr -> res (S * option (list cell)))
  v0 file es v' :
  rewrite pv lim true d kw visitor v0 (Some file) = (es, Ok v') ->
  forall done rest, es = done ++ rest ->
  main (exec {| main := Some file; tmp := None |} done) =
    match rest with [] => main (exec {| main := Some file; tmp := None |} es) | _ => Some file end.
Proof.
  intros H done rest Hes.
  destruct (rewrite_ok pv lim true d kw visitor v0 file es v' H)
    as (rows & outs & new & writes & H1 & H2 & H3 & H4 & Hw & H5 & H6).
  destruct rest as [|ev rest]; [rewrite app_nil_r in Hes; subst; reflexivity|].
  assert (Hd : forallb tmp_only done = true).
  { rewrite Hw in Hes. unfold move_events in Hes.
    destruct (app_prefix_split writes [RenameTmp] done (ev :: rest) Hes) as [[c ->]|(c & -> & _ & _)].
    - rewrite <- app_assoc in Hes. apply app_inv_head in Hes. destruct c as [|c0 c].
      + rewrite app_nil_r. exact H5.
      + cbn in Hes. injection Hes as _ Hes. destruct c; discriminate.
    - eapply tmp_only_prefix, H5. }
  rewrite tmp_only_leaves by exact Hd. reflexivity.
Qed.

(** any file system: before the move starts the file is untouched *)
Theorem rewrite_safe_before_move {S} pv lim same d kw (visitor : S -> nat -> list pystr -> res (S * option (list cell)))
  v0 file es v' :
  rewrite pv lim same d kw visitor v0 (Some file) = (es, Ok v') ->
  exists writes new, es = writes ++ move_events same new
    /\ (forall done rest, writes = done ++ rest ->
        main (exec {| main := Some file; tmp := None |} done) = Some file)
    /\ exec {| main := Some file; tmp := None |} writes = {| main := Some file; tmp := Some new |}
    /\ exec {| main := Some file; tmp := None |} es = {| main := Some new; tmp := None |}.
Proof.
  intros H.
  destruct (rewrite_ok pv lim same d kw visitor v0 file es v' H)
    as (rows & outs & new & writes & H1 & H2 & H3 & H4 & Hw & H5 & H6).
  exists writes, new. repeat split.
  - exact Hw.
  - intros done rest ->. apply tmp_only_prefix in H5. rewrite tmp_only_leaves by exact H5. reflexivity.
  - assert (Hm := tmp_only_leaves writes H5 {| main := Some file; tmp := None |}).
    destruct (exec _ writes) as [m t]. cbn in *. subst; reflexivity.
  - destruct (rewrite_result pv lim same d kw visitor v0 file es v' H) as (r2 & o2 & n2 & _ & _ & _ & E2).
    rewrite E2 in H4 |- *. cbn in H4. rewrite H4. reflexivity.
Qed.

(** *** default settings: reading back *)
Theorem rewrite_default_reads_back {S} pv lim same
  (visitor : S -> nat -> list pystr -> res (S * option (list cell))) v0 file es v' :
  rewrite pv lim same None kw0 visitor v0 (Some file) = (es, Ok v') ->
  exists rows outs new,
    unicode_reader lim None kw0 file = Ok (rows, None)
    /\ visit_all visitor v0 0 rows = Ok (v', outs)
    /\ main (exec {| main := Some file; tmp := None |} es) = Some new
    /\ (cells_within lim (texts outs) -> no_leading_bom (texts outs) ->
        unicode_reader lim None kw0 new = Ok (texts outs, None)).
Proof.
  intros H. destruct (rewrite_result pv lim same None kw0 visitor v0 file es v' H)
    as (rows & outs & new & H1 & H2 & H3 & H4).
  exists rows, outs, new. rewrite H4. repeat split; try assumption.
  intros Hl Hb. destruct (default_roundtrip pv lim outs Hl Hb) as (t & Et & Er).
  rewrite H3 in Et. injection Et as ->. exact Er.
Qed.

Lemma visit_all_pure (f : nat -> list pystr -> option (list cell)) rows : forall i,
  visit_all (fun (_ : unit) i r => Ok (tt, f i r)) tt i rows = Ok (tt, visit_pure f i rows).
Proof.
  induction rows as [|row rows IH]; intros i; [reflexivity|]. cbn [visit_all visit_pure].
  cbn [bind fst snd]. rewrite IH. cbn [bind fst snd]. destruct (f i row); reflexivity.
Qed.

(** visiting with the identity and nothing written before *)
Lemma visit_copy pv rows : forall w i v,
  match wrows pv (w_fmt w) (map (map (src_cell (w_kw w))) (map (map CStr) rows)) with
  | Ok t => exists parts, visit_rows pv (fun _ _ r => Ok (tt, Some (map CStr r))) w v i rows None =
      (parts, Ok (match rows with [] => v | _ => tt end,
         {| w_kw := w_kw w; w_fmt := w_fmt w; w_out := w_out w ++ t; w_rows := w_rows w + length rows |}))
      /\ concat parts = t
  | Err _ => True
  end.
Proof.
  induction rows as [|r rows IH]; intros w i v.
  - cbn. exists []. rewrite app_nil_r, Nat.add_0_r. split; [destruct w; reflexivity|reflexivity].
  - cbn [map wrows visit_rows]. unfold writerow.
    change (map (fun c => cell_str (escapedoubled (w_kw w) c)) (map CStr r)) with (map (src_cell (w_kw w)) (map CStr r)).
    destruct (wrow pv (w_fmt w) (map (src_cell (w_kw w)) (map CStr r))) as [a|e]; cbn [bind]; [|exact I].
    specialize (IH {| w_kw := w_kw w; w_fmt := w_fmt w; w_out := w_out w ++ a; w_rows := S (w_rows w) |} (i + 1)%nat tt).
    cbn [w_fmt w_kw w_out w_rows] in IH.
    destruct (wrows pv (w_fmt w) (map (map (src_cell (w_kw w))) (map (map CStr) rows))) as [b|e]; cbn [bind]; [|exact I].
    destruct IH as (parts & E & Hc). rewrite E. cbn [fst snd w_out]. rewrite skipn_app_len.
    exists (a :: parts). cbn [concat length]. rewrite Hc, <- app_assoc. split; [|reflexivity].
    f_equal. f_equal. f_equal; [destruct rows; reflexivity|]. f_equal. lia.
Qed.

Lemma default_open lim : writer_open lim None kw0 =
  Ok {| w_kw := kw0; w_fmt := default_fmt lim; w_out := []; w_rows := 0 |}.
Proof. reflexivity. Qed.

Lemma default_wrows pv lim rows : exists t, wrows pv (default_fmt lim) rows = Ok t.
Proof.
  apply wrows_total; [discriminate|]. intros forced s. apply wfield_total; [discriminate|reflexivity|reflexivity].
Qed.
Lemma wrows_app pv f a b : wrows pv f (a ++ b) = (x <- wrows pv f a ;; y <- wrows pv f b ;; Ok (x ++ y)).
Proof.
  induction a as [|r a IH]; cbn [app wrows bind].
  - destruct (wrows pv f b); reflexivity.
  - destruct (wrow pv f r); cbn [bind]; [|reflexivity]. rewrite IH.
    destruct (wrows pv f a); cbn [bind]; [|reflexivity]. destruct (wrows pv f b); cbn [bind]; [|reflexivity].
    rewrite app_assoc. reflexivity.
Qed.

Lemma writerows_list_index pv rows : forall w i j,
  writerows_from pv i w (map RList rows) = writerows_from pv j w (map RList rows).
Proof.
  induction rows as [|r rows IH]; intros w i j; [reflexivity|].
  cbn [map writerows_from]. destruct (writerow pv w r); [apply IH|reflexivity].
Qed.
Lemma perform_CallRow_list pv rows : forall w,
  perform pv w (map CallRow rows) = writerows_from pv 1 w (map RList rows).
Proof.
  induction rows as [|r rows IH]; intros w; [reflexivity|].
  cbn [map perform writerows_from]. destruct (writerow pv w r); cbn [fst snd]; [|reflexivity].
  rewrite IH. apply writerows_list_index.
Qed.

Lemma writerows_added pv w rows :
  exists calls, calls = added (w_rows w) rows /\
  writerows pv w rows = writerows_from pv 1 w (map RList calls).
Proof.
  exists (added (w_rows w) rows). split; [reflexivity|].
  rewrite <- perform_CallRow_list.
  assert (H : writerows pv w rows = perform pv w [CallRows rows]).
  { cbn [perform]. destruct (writerows pv w rows) as [w1 [e|]]; reflexivity. }
  rewrite H. unfold added. destruct (w_rows w) as [|k] eqn:E.
  - apply perform_fresh, E.
  - rewrite perform_later by (rewrite E; discriminate). cbn [all_rows]. rewrite app_nil_r. reflexivity.
Qed.

(** *** C08 *)
Theorem add_rows_spec pv lim same file rows old :
  match file with None => old = [] | Some t => unicode_reader lim None kw0 t = Ok (old, None) end ->
  exists es new,
    add_rows pv lim same file rows = (es, Ok tt)
    /\ exec {| main := file; tmp := None |} es = {| main := Some new; tmp := None |}
    /\ write_file pv lim None kw0 (map (map CStr) old ++ added (length old) rows) = Ok new.
Proof.
  intros Hold. unfold add_rows. rewrite default_open.
  set (w := {| w_kw := kw0; w_fmt := default_fmt lim; w_out := []; w_rows := 0 |}).
  destruct (default_wrows pv lim (map (map (src_cell kw0)) (map (map CStr) old))) as [t Ht].
  assert (Hcp : exists parts v, match file with
     | None => ([], Ok (tt, w))
     | Some t => match unicode_reader lim None kw0 t with
            | Err e => ([], Err e)
            | Ok rs => visit_rows pv (fun _ _ r => Ok (tt, Some (map CStr r))) w tt 0 (fst rs) (snd rs)
            end
     end = (parts, Ok (v, {| w_kw := kw0; w_fmt := default_fmt lim; w_out := t; w_rows := length old |}))
     /\ concat parts = t).
  { destruct file as [f|].
    - rewrite Hold. cbn [fst snd]. assert (H := visit_copy pv old w 0%nat tt). cbn [w_fmt w_kw w_out w_rows w] in H.
      rewrite Ht in H. destruct H as (parts & E & Hc). exists parts. eexists. split; [exact E|exact Hc].
    - subst old. cbn in Ht. injection Ht as <-. exists [], tt. split; reflexivity. }
  destruct Hcp as (parts & v & -> & Hc). cbn [fst snd].
  set (w1 := {| w_kw := kw0; w_fmt := default_fmt lim; w_out := t; w_rows := length old |}).
  destruct (writerows_added pv w1 rows) as (calls & Hcalls & Hw). cbn [w_rows w1] in Hcalls.
  destruct (default_wrows pv lim (map (map (src_cell kw0)) calls)) as [t2 Ht2].
  assert (Hl := writerows_list pv w1 calls 1). cbn [w_fmt w_kw w_out w_rows w1] in Hl. rewrite Ht2 in Hl.
  fold w1 in Hl. rewrite Hw, Hl. cbn [fst snd w_out w1]. rewrite skipn_app_len.
  eexists _, (t ++ t2). split; [reflexivity|]. split.
  - change (CreateTmp :: TruncTmp :: map AppendTmp parts ++ AppendTmp t2 :: move_events same (t ++ t2))
      with ([CreateTmp; TruncTmp] ++ map AppendTmp parts ++ [AppendTmp t2] ++ move_events same (t ++ t2)).
    set (s0 := {| main := file; tmp := None |}).
    replace (([CreateTmp; TruncTmp] ++ map AppendTmp parts) ++ [AppendTmp t2] ++ move_events same (t ++ t2))
      with (([CreateTmp; TruncTmp] ++ map AppendTmp (parts ++ [t2])) ++ move_events same (t ++ t2))
      by (rewrite map_app, <- !app_assoc; reflexivity).
    assert (Htmp : tmp (exec s0 ([CreateTmp; TruncTmp] ++ map AppendTmp (parts ++ [t2]))) = Some (t ++ t2)).
    { rewrite exec_app, exec_appends. destruct (parts ++ [t2]) eqn:E; [destruct parts; discriminate|].
      rewrite <- E, concat_app, Hc. cbn. rewrite app_nil_r. reflexivity. }
    rewrite exec_app. assert (Hm := exec_move same _ _ Htmp).
    assert (Hn := move_clears_tmp same (exec s0 ([CreateTmp; TruncTmp] ++ map AppendTmp (parts ++ [t2]))) (t ++ t2)).
    destruct (exec (exec s0 _) _) as [m tm]. cbn in Hm, Hn. subst; reflexivity.
  - rewrite (write_file_spec pv lim None kw0 _ kw0 (default_fmt lim) eq_refl (default_fmt_ok lim)).
    rewrite <- Hcalls, map_app, wrows_app, Ht. cbn [bind]. rewrite Ht2. cbn [bind].
    unfold file_text. cbn. destruct (t ++ t2); reflexivity.
Qed.

Lemma texts_CStr rows : texts (map (map CStr) rows) = rows.
Proof.
  unfold texts. rewrite map_map. transitivity (map (fun r => r) rows); [|apply map_id].
  apply map_ext. intros r. rewrite map_map. cbn. apply map_id.
Qed.
Lemma texts_app a b : texts (a ++ b) = texts a ++ texts b.
Proof. apply map_app. Qed.

Theorem add_rows_appends pv lim same file rows old :
  match file with None => old = [] | Some t => unicode_reader lim None kw0 t = Ok (old, None) end ->
  let result := old ++ texts (added (length old) rows) in
  cells_within lim result -> no_leading_bom result ->
  exists es new,
    add_rows pv lim same file rows = (es, Ok tt)
    /\ exec {| main := file; tmp := None |} es = {| main := Some new; tmp := None |}
    /\ unicode_reader lim None kw0 new = Ok (result, None).
Proof.
  intros Hold result Hl Hb. destruct (add_rows_spec pv lim same file rows old Hold) as (es & new & H1 & H2 & H3).
  exists es, new. split; [exact H1|]. split; [exact H2|].
  assert (Ht : texts (map (map CStr) old ++ added (length old) rows) = result)
    by (rewrite texts_app, texts_CStr; reflexivity).
  destruct (default_roundtrip pv lim (map (map CStr) old ++ added (length old) rows)) as (t & Et & Er).
  - rewrite Ht; exact Hl.
  - rewrite Ht; exact Hb.
  - rewrite H3 in Et. injection Et as ->. rewrite Ht in Er. exact Er.
Qed.

Lemma added_lists k rows : texts (added k (map RList (map (map CStr) rows))) = rows.
Proof.
  assert (H : texts (map row_values (map RList (map (map CStr) rows))) = rows).
  { rewrite map_map. unfold row_values. rewrite map_id. apply texts_CStr. }
  unfold added. destruct k; [|exact H]. unfold expected_rows. cbn [all_rows]. rewrite app_nil_r.
  destruct rows as [|r rows]; [reflexivity|]. exact H.
Qed.

Theorem add_history_appends pv lim same calls : forall file old,
  match file with None => old = [] | Some t => unicode_reader lim None kw0 t = Ok (old, None) end ->
  cells_within lim (old ++ concat calls) -> no_leading_bom (old ++ concat calls) ->
  calls <> [] ->
  exists new, add_history pv lim same file calls = Some new
    /\ unicode_reader lim None kw0 new = Ok (old ++ concat calls, None).
Proof.
  induction calls as [|rows calls IH]; intros file old Hold Hl Hb Hne; [congruence|].
  cbn [concat] in *. rewrite app_assoc in *. cbn [add_history].
  assert (Ht := added_lists (length old) rows).
  destruct (add_rows_appends pv lim same file (map RList (map (map CStr) rows)) old Hold) as (es & new & H1 & H2 & H3).
  - rewrite Ht. intros row s Hr Hs. eapply Hl; [apply in_or_app; left; exact Hr|exact Hs].
  - rewrite Ht. destruct (old ++ rows) as [|r0 l]; [exact I|]. exact Hb.
  - rewrite H1. cbn [fst]. rewrite H2. cbn [main]. rewrite Ht in H3.
    destruct calls as [|c calls].
    + cbn [add_history concat]. rewrite app_nil_r. exists new. split; [reflexivity|exact H3].
    + destruct (IH (Some new) (old ++ rows) H3 Hl Hb) as (n2 & E2 & R2); [discriminate|].
      exists n2. split; [exact E2|exact R2].
Qed.

(** *** C09 *)
Lemma dict_filter_visit f header rows : forall n i kept dropped,
  Selected (kept_row f header) rows kept -> Selected (dropped_row f header) rows dropped ->
  visit_all (dict_filter (fun d => Ok (f d))) {| df_header := header; df_removed := n |} (S i) rows =
  Ok ({| df_header := header; df_removed := n + length dropped |}, map (map CStr) kept).
Proof.
  induction rows as [|row rows IH]; intros n i kept dropped Hk Hd.
  - inversion Hk; inversion Hd; subst. cbn. rewrite Nat.add_0_r. reflexivity.
  - cbn [visit_all]. unfold dict_filter at 1. cbn [Nat.eqb df_header df_removed].
    change (S i + 1)%nat with (S (i + 1)).
    destruct row as [|c row].
    + cbn [bind fst snd]. inversion Hk; subst; [exfalso; match goal with H : kept_row _ _ [] |- _ => destruct H; congruence end|].
      inversion Hd; subst; [exfalso; match goal with H : dropped_row _ _ [] |- _ => destruct H; congruence end|].
      rewrite (IH n (i + 1)%nat kept dropped) by assumption. reflexivity.
    + cbn [bind]. fold (row_dict header (c :: row)). destruct (f (row_dict header (c :: row))) eqn:Ef; cbn [bind fst snd].
      * inversion Hd; subst; [exfalso; match goal with H : dropped_row _ _ _ |- _ => destruct H; congruence end|].
        inversion Hk; subst; [|exfalso; match goal with H : ~ kept_row _ _ _ |- _ => apply H; split; [discriminate|assumption] end].
        rewrite (IH n (i + 1)%nat l' dropped) by assumption. reflexivity.
      * inversion Hk; subst; [exfalso; match goal with H : kept_row _ _ _ |- _ => destruct H; congruence end|].
        inversion Hd; subst; [|exfalso; match goal with H : ~ dropped_row _ _ _ |- _ => apply H; split; [discriminate|assumption] end].
        rewrite (IH (S n) (i + 1)%nat kept l') by assumption. cbn [bind fst snd length].
        rewrite Nat.add_succ_comm. reflexivity.
Qed.

Theorem filter_rows_spec pv lim same d kw f file header rows kept dropped :
  unicode_reader lim d kw file = Ok (header :: rows, None) ->
  Selected (kept_row f header) rows kept ->
  Selected (dropped_row f header) rows dropped ->
  forall new, write_file pv lim d kw (map (map CStr) (header :: kept)) = Ok new ->
  exists es,
    filter_rows_as_dict pv lim same d kw (fun x => Ok (f x)) (Some file) = (es, Ok (length dropped))
    /\ exec {| main := Some file; tmp := None |} es = {| main := Some new; tmp := None |}.
Proof.
  intros Hr Hk Hd new Hn.
  assert (Hv : visit_all (dict_filter (fun x => Ok (f x))) {| df_header := []; df_removed := 0 |} 0 (header :: rows) =
    Ok ({| df_header := header; df_removed := length dropped |}, map (map CStr) (header :: kept))).
  { cbn [visit_all]. unfold dict_filter at 1. cbn [Nat.eqb bind fst snd df_removed Nat.add].
    rewrite (dict_filter_visit f header rows 0%nat 0%nat kept dropped Hk Hd). reflexivity. }
  destruct (rewrite_succeeds pv lim same d kw _ _ file _ _ _ new Hr Hv Hn) as [es He].
  exists es. unfold filter_rows_as_dict. rewrite He. cbn [fst snd df_removed]. split; [reflexivity|].
  destruct (rewrite_result _ _ _ _ _ _ _ _ _ _ He) as (r2 & o2 & n2 & E1 & E2 & E3 & E4).
  rewrite Hr in E1. injection E1 as <-. rewrite Hv in E2.
  assert (Ho : o2 = map (map CStr) (header :: kept)) by congruence. rewrite Ho, Hn in E3. injection E3 as <-. exact E4.
Qed.

Theorem filter_rows_empty_file pv lim same d kw f file :
  unicode_reader lim d kw file = Ok ([], None) ->
  forall new, write_file pv lim d kw [] = Ok new ->
  exists es,
    filter_rows_as_dict pv lim same d kw f (Some file) = (es, Ok 0%nat)
    /\ exec {| main := Some file; tmp := None |} es = {| main := Some new; tmp := None |}.
Proof.
  intros Hr new Hn.
  destruct (rewrite_succeeds pv lim same d kw (dict_filter f) {| df_header := []; df_removed := 0 |} file [] _ [] new Hr eq_refl Hn) as [es He].
  exists es. unfold filter_rows_as_dict. rewrite He. split; [reflexivity|]. cbn [fst].
  destruct (rewrite_result _ _ _ _ _ _ _ _ _ _ He) as (r2 & o2 & n2 & E1 & E2 & E3 & E4).
  rewrite Hr in E1. injection E1 as <-. cbn in E2. injection E2 as <-.
  rewrite Hn in E3. injection E3 as <-. exact E4.
Qed.
