(** Proofs about Dsv, continued: dict rows, header rows, rewrite/add_rows/filter. *)
From Verif Require Import PyStr PyCsv PyCsvProofs PyCsvRound Dsv DsvSpec DsvProofs DsvProofs2.

(** ** Insertion ordered dicts *)
Section Dict.
Context {K V : Type} (eqb : K -> K -> bool).
Hypothesis eqb_ok : forall a b, eqb a b = true <-> a = b.

Lemma eqb_refl' k : eqb k k = true.
Proof. apply eqb_ok; reflexivity. Qed.
Lemma eqb_neq' a b : a <> b -> eqb a b = false.
Proof. intros H; destruct (eqb a b) eqn:E; [apply eqb_ok in E; congruence|reflexivity]. Qed.

Lemma dget_dset (d : list (K * V)) k v k' :
  dget eqb (dset eqb d k v) k' = if eqb k' k then Some v else dget eqb d k'.
Proof.
  induction d as [|[k0 v0] d IH]; cbn [dset dget].
  - reflexivity.
  - destruct (eqb k k0) eqn:E; cbn [dget].
    + apply eqb_ok in E; subst k0. destruct (eqb k' k); reflexivity.
    + destruct (eqb k' k0) eqn:E'.
      * apply eqb_ok in E'; subst k0. destruct (eqb k' k) eqn:E2; [|reflexivity].
        apply eqb_ok in E2; subst k'. rewrite eqb_refl' in E; discriminate.
      * exact IH.
Qed.
Lemma dget_app (a b : list (K * V)) k :
  dget eqb (a ++ b) k = match dget eqb a k with Some v => Some v | None => dget eqb b k end.
Proof. induction a as [|[k0 v0] a IH]; cbn; [reflexivity|]. destruct (eqb k k0); [reflexivity|exact IH]. Qed.
Lemma dget_dset_all (kvs d : list (K * V)) k :
  dget eqb (dset_all eqb d kvs) k =
  match dget eqb (rev kvs) k with Some v => Some v | None => dget eqb d k end.
Proof.
  revert d; induction kvs as [|[k0 v0] kvs IH]; intros d; [reflexivity|].
  change (dset_all eqb d ((k0, v0) :: kvs)) with (dset_all eqb (dset eqb d k0 v0) kvs).
  rewrite IH. cbn [rev]. rewrite dget_app, dget_dset. cbn [dget].
  destruct (dget eqb (rev kvs) k); [reflexivity|]. destruct (eqb k k0); reflexivity.
Qed.
Lemma dset_new (d : list (K * V)) k v : ~ In k (map fst d) -> dset eqb d k v = d ++ [(k, v)].
Proof.
  induction d as [|[k0 v0] d IH]; cbn; intros H; [reflexivity|].
  rewrite eqb_neq' by (intros ->; apply H; left; reflexivity).
  rewrite IH by (intros Hin; apply H; right; exact Hin). reflexivity.
Qed.
Lemma dset_all_new (kvs d : list (K * V)) :
  NoDup (map fst d ++ map fst kvs) -> dset_all eqb d kvs = d ++ kvs.
Proof.
  revert d; induction kvs as [|[k v] kvs IH]; intros d H; [cbn; rewrite app_nil_r; reflexivity|].
  change (dset_all eqb d ((k, v) :: kvs)) with (dset_all eqb (dset eqb d k v) kvs).
  cbn [map fst] in H. rewrite dset_new.
  - rewrite IH; [rewrite <- app_assoc; reflexivity|]. rewrite map_app. cbn [map fst]. rewrite <- app_assoc. exact H.
  - apply NoDup_remove_2 in H. intros Hin; apply H. apply in_or_app; left; exact Hin.
Qed.
End Dict.

Lemma dkey_eqb_ok a b : dkey_eqb a b = true <-> a = b.
Proof.
  destruct a as [a|], b as [b|]; cbn; try (split; congruence).
  rewrite str_eqb_eq. split; congruence.
Qed.

Lemma combine_map_l {A B C} (g : A -> C) (l : list A) (m : list B) :
  combine (map g l) m = map (fun kv => (g (fst kv), snd kv)) (combine l m).
Proof.
  revert m; induction l as [|a l IH]; intros [|b m]; cbn; try reflexivity. rewrite IH; reflexivity.
Qed.
Lemma combine_map_r {A B C} (g : B -> C) (l : list A) (m : list B) :
  combine l (map g m) = map (fun kv => (fst kv, g (snd kv))) (combine l m).
Proof.
  revert m; induction l as [|a l IH]; intros [|b m]; cbn; try reflexivity. rewrite IH; reflexivity.
Qed.
Lemma combine_repeat {A B} (l : list A) (r : B) :
  combine l (repeat r (length l)) = map (fun k => (k, r)) l.
Proof. induction l as [|b l IH]; cbn; [reflexivity|]. rewrite IH; reflexivity. Qed.
Lemma combine_app_pad {A B} (fns : list A) (vals : list B) (r : B) :
  (length vals <= length fns)%nat ->
  combine fns (vals ++ repeat r (length fns - length vals)) =
  combine fns vals ++ map (fun k => (k, r)) (skipn (length vals) fns).
Proof.
  revert vals; induction fns as [|a fns IH]; intros vals H.
  - destruct vals; [reflexivity|cbn in H; lia].
  - destruct vals as [|v vals]; cbn [length] in H.
    + cbn [app length skipn]. rewrite Nat.sub_0_r.
      change (S (length fns)) with (length (a :: fns)). rewrite combine_repeat. reflexivity.
    + cbn [app combine length Nat.sub skipn]. rewrite IH by lia. reflexivity.
Qed.
Lemma combine_firstn_short {A B} (fns : list A) (vals : list B) :
  (length fns <= length vals)%nat -> map fst (combine fns vals) = fns.
Proof.
  revert vals; induction fns as [|a fns IH]; intros [|b vals] H; cbn in *; try reflexivity; try lia.
  rewrite IH by lia; reflexivity.
Qed.

Lemma dict_item_short fns restkey restval row :
  (length row <= length fns)%nat ->
  dict_item fns restkey restval row =
  dset_all dkey_eqb [] (map (fun kv => (Some (fst kv), snd kv)) (combine fns (padded fns row restval))).
Proof.
  intros H. unfold dict_item. destruct (Nat.ltb_spec (length fns) (length row)); [lia|].
  unfold padded. replace (length fns - length row)%nat with (length fns - length (map DStr row))%nat
    by (rewrite map_length; reflexivity).
  rewrite combine_app_pad by (rewrite map_length; exact H).
  rewrite map_app, map_map, combine_map_r, map_map, map_length. cbn [fst snd].
  unfold dset_all. rewrite fold_left_app. reflexivity.
Qed.

Theorem dict_item_lookup fns restkey restval row k :
  let d := dict_item fns restkey restval row in
  ((length row <= length fns)%nat ->
     dget dkey_eqb d (Some k) = dget str_eqb (rev (combine fns (padded fns row restval))) k
     /\ dget dkey_eqb d None = None)
  /\ ((length fns < length row)%nat ->
     dget dkey_eqb d restkey = Some (DRest (skipn (length fns) row))
     /\ (Some k <> restkey -> dget dkey_eqb d (Some k) =
            dget str_eqb (rev (combine fns (map DStr row))) k)).
Proof.
  cbv zeta. split; intros H.
  - rewrite dict_item_short by exact H. rewrite !(dget_dset_all _ dkey_eqb_ok).
    rewrite <- map_rev. generalize (rev (combine fns (padded fns row restval))) as l.
    split; induction l as [|[a b] l IH]; cbn; try reflexivity.
    + destruct (str_eqb k a); [reflexivity|exact IH].
    + exact IH.
  - unfold dict_item. destruct (Nat.ltb_spec (length fns) (length row)); [|lia].
    rewrite !(dget_dset _ dkey_eqb_ok). split.
    + rewrite (eqb_refl' _ dkey_eqb_ok). reflexivity.
    + intros Hk. rewrite (eqb_neq' _ dkey_eqb_ok) by exact Hk.
      rewrite (dget_dset_all _ dkey_eqb_ok), <- map_rev, combine_map_r, <- map_rev.
      generalize (rev (combine fns row)) as l.
      induction l as [|[a b] l IH]; cbn; [reflexivity|]. destruct (str_eqb k a); [reflexivity|exact IH].
Qed.

Lemma NoDup_map_Some (l : list pystr) : NoDup l -> NoDup (map (@Some pystr) l).
Proof.
  induction 1 as [|x l Hx _ IH]; cbn; constructor; [|exact IH].
  rewrite in_map_iff. intros (y & E & Hy). injection E as ->. apply Hx, Hy.
Qed.

Theorem dict_item_exact fns restkey restval row :
  NoDup fns -> (forall k, restkey = Some k -> ~ In k fns) ->
  dict_item fns restkey restval row =
  map (fun kv => (Some (fst kv), snd kv)) (combine fns (padded fns row restval))
  ++ (if Nat.ltb (length fns) (length row) then [(restkey, DRest (skipn (length fns) row))] else []).
Proof.
  intros Hnd Hrk. destruct (Nat.ltb_spec (length fns) (length row)) as [Hlt|Hge].
  - unfold dict_item. destruct (Nat.ltb_spec (length fns) (length row)); [|lia].
    unfold padded. replace (length fns - length row)%nat with 0%nat by lia. cbn [repeat]. rewrite app_nil_r.
    rewrite combine_map_r, map_map. cbn [fst snd].
    set (kvs := map (fun kv : pystr * pystr => (Some (fst kv), DStr (snd kv))) (combine fns row)).
    assert (Hkeys : map fst kvs = map (@Some pystr) fns).
    { unfold kvs. rewrite map_map. cbn. rewrite <- (map_map fst (@Some pystr)), combine_firstn_short by lia. reflexivity. }
    clearbody kvs.
    rewrite (dset_all_new _ dkey_eqb_ok) by (change (NoDup (map fst kvs)); rewrite Hkeys; apply NoDup_map_Some, Hnd).
    cbn [app]. apply (dset_new _ dkey_eqb_ok). intros Hin.
    assert (Hin' : In restkey (map (@Some pystr) fns)) by (rewrite <- Hkeys; exact Hin).
    apply in_map_iff in Hin'. destruct Hin' as (k & E & Hk). eapply Hrk; [symmetry; exact E|exact Hk].
  - rewrite dict_item_short by exact Hge. rewrite app_nil_r.
    rewrite (dset_all_new _ dkey_eqb_ok); [reflexivity|]. cbn.
    rewrite map_map. cbn. rewrite <- (map_map fst (@Some pystr)), combine_firstn_short.
    + apply NoDup_map_Some, Hnd.
    + unfold padded. rewrite app_length, map_length, repeat_length. lia.
Qed.

(** ** C10 writerows *)
Lemma perform_values pv rows : forall w i,
  (i <> 0 \/ w_rows w <> 0)%nat ->
  writerows_from pv i w rows = perform pv w (map CallRow (map row_values rows)).
Proof.
  induction rows as [|r rows IH]; intros w i Hi; [reflexivity|].
  cbn [writerows_from map perform].
  assert (Hh : match r with
               | RList _ => Ok w
               | RDict items => if Nat.eqb i 0 && Nat.eqb (w_rows w) 0
                                then writerow pv w (map (fun kv => CStr (fst kv)) items) else Ok w
               end = Ok w).
  { destruct r; [reflexivity|]. destruct (Nat.eqb_spec i 0), (Nat.eqb_spec (w_rows w) 0); cbn; try reflexivity.
    exfalso; lia. }
  rewrite Hh. change (match r with RList cs => cs | RDict items => map snd items end) with (row_values r).
  destruct (writerow pv w (row_values r)) as [w2|e]; cbn [fst snd]; [|reflexivity].
  apply IH. left; discriminate.
Qed.

Lemma writerow_rows pv w row w' : writerow pv w row = Ok w' -> w_rows w' = S (w_rows w).
Proof.
  unfold writerow. destruct (wrow _ _ _); cbn; [|discriminate]. intros E; injection E as <-; reflexivity.
Qed.
Lemma perform_app pv a b w :
  perform pv w (a ++ b) =
  match perform pv w a with (w1, None) => perform pv w1 b | r => r end.
Proof.
  revert w; induction a as [|c a IH]; intros w; cbn [app perform].
  - reflexivity.
  - destruct (match c with CallRow _ => _ | CallRows _ => _ end) as [w1 [e|]]; cbn [snd fst]; [reflexivity|apply IH].
Qed.
Lemma perform_rows_mono pv calls : forall w w' o, perform pv w calls = (w', o) -> (w_rows w <= w_rows w')%nat.
Proof.
  assert (Hw : forall rows w i w' o, writerows_from pv i w rows = (w', o) -> (w_rows w <= w_rows w')%nat).
  { induction rows as [|r rows IH]; intros w i w' o H; cbn [writerows_from] in H; [injection H as <- _; lia|].
    set (h := match r with RList _ => Ok w | RDict items => _ end) in H.
    assert (Hh : forall w1, h = Ok w1 -> (w_rows w <= w_rows w1)%nat).
    { intros w1. unfold h. destruct r; [intros E; injection E as <-; lia|].
      destruct (_ && _); [|intros E; injection E as <-; lia]. intros E. apply writerow_rows in E. lia. }
    destruct h as [w1|e]; [|injection H as <- _; lia]. specialize (Hh w1 eq_refl).
    destruct (writerow pv w1 _) as [w2|e] eqn:E2; [|injection H as <- _; lia].
    apply writerow_rows in E2. apply IH in H. lia. }
  induction calls as [|c calls IH]; intros w w' o H; cbn [perform] in H; [injection H as <- _; lia|].
  destruct c as [cs|rs].
  - destruct (writerow pv w cs) as [w1|e] eqn:E1; cbn [fst snd] in H; [|injection H as <- _; lia].
    apply writerow_rows in E1. apply IH in H. lia.
  - destruct (writerows pv w rs) as [w1 [e|]] eqn:E1; cbn [fst snd] in H; apply Hw in E1.
    + injection H as <- _; lia.
    + apply IH in H. lia.
Qed.

(** once a row has been written, no header any more *)
Theorem perform_later pv calls w :
  w_rows w <> 0%nat ->
  perform pv w calls = perform pv w (map CallRow (map row_values (all_rows calls))).
Proof.
  revert w; induction calls as [|c calls IH]; intros w Hw; [reflexivity|].
  destruct c as [cs|rs]; cbn [all_rows map perform row_values].
  - destruct (writerow pv w cs) as [w1|e] eqn:E; cbn [fst snd]; [|reflexivity].
    apply IH. apply writerow_rows in E. lia.
  - unfold writerows. rewrite perform_values by (right; exact Hw).
    rewrite !map_app, perform_app.
    destruct (perform pv w (map CallRow (map row_values rs))) as [w1 [e|]] eqn:E; cbn [fst snd]; [reflexivity|].
    apply IH. apply perform_rows_mono in E. lia.
Qed.

Theorem perform_fresh pv calls w :
  w_rows w = 0%nat ->
  perform pv w calls = perform pv w (map CallRow (expected_rows calls)).
Proof.
  revert w; induction calls as [|c calls IH]; intros w Hw; [reflexivity|].
  destruct c as [cs|rs].
  - unfold expected_rows; cbn [all_rows map row_values perform].
    destruct (writerow pv w cs) as [w1|e] eqn:E; cbn [fst snd]; [|reflexivity].
    apply perform_later. apply writerow_rows in E. lia.
  - destruct rs as [|r rs].
    + cbn [perform writerows writerows_from fst snd]. rewrite IH by exact Hw. reflexivity.
    + assert (Hlater : forall w1, w_rows w1 <> 0%nat ->
        (let r0 := writerows_from pv 1 w1 rs in
         match snd r0 with Some e => (fst r0, Some e) | None => perform pv (fst r0) calls end) =
        perform pv w1 (map CallRow (map row_values (rs ++ all_rows calls)))).
      { intros w1 H1. cbv zeta. rewrite perform_values by (right; exact H1).
        rewrite !map_app, perform_app.
        destruct (perform pv w1 (map CallRow (map row_values rs))) as [w2 [e|]] eqn:E; cbn [fst snd]; [reflexivity|].
        apply perform_later. apply perform_rows_mono in E. lia. }
      unfold expected_rows; cbn [all_rows app].
      destruct r as [cs|items]; cbn [perform writerows writerows_from map row_values].
      * unfold writerows; cbn [writerows_from].
        destruct (writerow pv w cs) as [w1|e] eqn:E; cbn [fst snd]; [|reflexivity].
        apply Hlater. apply writerow_rows in E. lia.
      * unfold writerows; cbn [writerows_from]. rewrite Hw. cbn [Nat.eqb andb].
        destruct (writerow pv w (map (fun kv => CStr (fst kv)) items)) as [w1|e] eqn:E; cbn [fst snd]; [|reflexivity].
        destruct (writerow pv w1 (map snd items)) as [w2|e] eqn:E2; cbn [fst snd]; [|reflexivity].
        apply Hlater. apply writerow_rows in E2. lia.
Qed.

(** ** C07 rewrite *)
Lemma writerow_out pv w row w' :
  writerow pv w row = Ok w' ->
  exists t, wrow pv (w_fmt w) (map (src_cell (w_kw w)) row) = Ok t
    /\ w' = {| w_kw := w_kw w; w_fmt := w_fmt w; w_out := w_out w ++ t; w_rows := S (w_rows w) |}.
Proof.
  unfold writerow. fold (src_cell (w_kw w)).
  change (map (fun c => cell_str (escapedoubled (w_kw w) c)) row) with (map (src_cell (w_kw w)) row).
  destruct (wrow _ _ _) as [t|]; cbn [bind]; [|discriminate].
  intros E; injection E as <-. exists t; split; reflexivity.
Qed.

Lemma skipn_app_len {A} (a b : list A) : skipn (length a) (a ++ b) = b.
Proof. induction a; [reflexivity|assumption]. Qed.

Lemma visit_rows_ok {S} pv (visitor : S -> nat -> list pystr -> res (S * option (list cell))) rows :
  forall w v i e parts v' w',
  visit_rows pv visitor w v i rows e = (parts, Ok (v', w')) ->
  e = None /\ exists outs t, visit_all visitor v i rows = Ok (v', outs)
    /\ wrows pv (w_fmt w) (map (map (src_cell (w_kw w))) outs) = Ok t
    /\ concat parts = t /\ w_out w' = w_out w ++ t /\ (parts = [] <-> outs = []).
Proof.
  induction rows as [|row rows IH]; intros w v i e parts v' w' H; cbn [visit_rows] in H.
  - destruct e; [discriminate|]. injection H as <- <- <-. split; [reflexivity|].
    exists [], []. cbn. rewrite app_nil_r. repeat split.
  - cbn [visit_all]. destruct (visitor v i row) as [[v1 [out|]]|] eqn:Ev; [| |discriminate].
    + destruct (writerow pv w out) as [w1|] eqn:Ew; [|discriminate].
      destruct (visit_rows pv visitor w1 v1 (i + 1) rows e) as [parts1 r1] eqn:Er.
      cbn [fst snd] in H. injection H as <- ->.
      destruct (writerow_out pv w out w1 Ew) as (t & Et & ->). cbn [w_out] in *.
      destruct (IH _ _ _ _ _ _ _ Er) as (He & outs & t2 & H1 & H2 & H3 & H4 & H5).
      split; [exact He|]. exists (out :: outs), (t ++ t2). cbn [bind fst snd].
      rewrite H1. cbn [bind fst snd]. cbn [w_fmt w_kw] in H2.
      cbn [map wrows]. rewrite Et; cbn [bind]. rewrite H2; cbn [bind].
      cbn [w_out] in *. rewrite skipn_app_len. cbn [concat]. rewrite H3, H4, <- app_assoc.
      split; [reflexivity|]. split; [reflexivity|]. split; [reflexivity|]. split; [reflexivity|].
      split; discriminate.
    + destruct (IH _ _ _ _ _ _ _ H) as (He & outs & t2 & H1 & H2 & H3 & H4 & H5).
      split; [exact He|]. exists outs, t2. cbn [bind fst snd]. rewrite H1. cbn [bind fst snd].
      repeat split; try assumption; apply H5.
Qed.

Definition leaves_main (es : list event) : Prop := forall s, main (exec s es) = main s.
Definition tmp_only (e : event) : bool :=
  match e with CreateTmp | TruncTmp | AppendTmp _ => true | _ => false end.
Lemma tmp_only_leaves es : forallb tmp_only es = true -> leaves_main es.
Proof.
  induction es as [|e es IH]; cbn [forallb]; intros H s; [reflexivity|].
  apply andb_true_iff in H; destruct H as [He H].
  change (main (exec (apply_event s e) es) = main s). rewrite (IH H). destruct e; reflexivity || discriminate.
Qed.
Lemma tmp_only_prefix a b : forallb tmp_only (a ++ b) = true -> forallb tmp_only a = true.
Proof. rewrite forallb_app. intros H; apply andb_true_iff in H; apply H. Qed.

Lemma exec_app s a b : exec s (a ++ b) = exec (exec s a) b.
Proof. unfold exec; apply fold_left_app. Qed.
Lemma exec_appends s ts : exec s (map AppendTmp ts) =
  match ts with [] => s | _ => {| main := main s; tmp := Some (getdef (tmp s) [] ++ concat ts) |} end.
Proof.
  revert s; induction ts as [|t ts IH]; intros s; [reflexivity|].
  cbn [map]. change (exec s (AppendTmp t :: map AppendTmp ts)) with (exec (apply_event s (AppendTmp t)) (map AppendTmp ts)).
  rewrite IH. destruct ts as [|t2 ts]; cbn; rewrite ?app_nil_r, <- ?app_assoc; reflexivity.
Qed.
Lemma exec_append_main s cs : exec s (map (fun c => AppendMain [c]) cs) =
  match cs with [] => s | _ => {| main := Some (getdef (main s) [] ++ cs); tmp := tmp s |} end.
Proof.
  revert s; induction cs as [|c cs IH]; intros s; [reflexivity|].
  cbn [map]. change (exec s (AppendMain [c] :: map (fun c => AppendMain [c]) cs))
    with (exec (apply_event s (AppendMain [c])) (map (fun c => AppendMain [c]) cs)).
  rewrite IH. destruct cs as [|c2 cs]; cbn; rewrite <- ?app_assoc; reflexivity.
Qed.
Lemma exec_move same s content :
  tmp s = Some content -> main (exec s (move_events same content)) = Some content.
Proof.
  intros H. unfold move_events. destruct same.
  - cbn. exact H.
  - change (TruncMain :: map (fun c => AppendMain [c]) content ++ [UnlinkTmp])
      with ([TruncMain] ++ map (fun c => AppendMain [c]) content ++ [UnlinkTmp]).
    rewrite !exec_app, exec_append_main. destruct content; reflexivity.
Qed.

(** the successful run *)
Theorem rewrite_ok {S} pv lim same d kw (visitor : S -> nat -> list pystr -> res (S * option (list cell)))
  v0 file es v' :
  rewrite pv lim same d kw visitor v0 (Some file) = (es, Ok v') ->
  exists rows outs new writes,
    unicode_reader lim d kw file = Ok (rows, None)
    /\ visit_all visitor v0 0 rows = Ok (v', outs)
    /\ write_file pv lim d kw outs = Ok new
    /\ main (exec {| main := Some file; tmp := None |} es) = Some new
    /\ es = writes ++ move_events same new
    /\ forallb tmp_only writes = true
    /\ tmp (exec {| main := Some file; tmp := None |} writes) = Some new.
Proof.
  unfold rewrite. destruct (unicode_reader lim d kw file) as [[rows e]|] eqn:Er; [|discriminate].
  destruct (writer_open lim d kw) as [w|] eqn:Ew; [|discriminate]. cbn [fst snd].
  destruct (visit_rows pv visitor w v0 0 rows e) as [parts [[v1 w1]|]] eqn:Ev; cbn [fst snd]; [|discriminate].
  intros H. injection H as <- <-.
  destruct (visit_rows_ok pv visitor rows _ _ _ _ _ _ _ Ev) as (-> & outs & t & H1 & H2 & H3 & H4 & H5).
  assert (Hw0 : w_out w = [] /\ effective_kw d kw = Ok (w_kw w) /\ mk_fmt lim (w_kw w) = Ok (w_fmt w)).
  { unfold writer_open in Ew. destruct (effective_kw d kw) as [k|]; cbn [bind] in Ew; [|discriminate].
    destruct (mk_fmt lim k) as [f|] eqn:Ef; cbn [bind] in Ew; [|discriminate]. injection Ew as <-. cbn. auto. }
  destruct Hw0 as (Ho & Hk & Hf). rewrite Ho in H4. cbn [app] in H4.
  set (bomev := if writer_adds_bom d then match concat parts with [] => [] | _ => [AppendTmp [BOM]] end else []).
  assert (Hnew : write_file pv lim d kw outs = Ok (file_text d t)).
  { rewrite (write_file_spec pv lim d kw outs _ _ Hk Hf), H2. reflexivity. }
  assert (Hb : bomev = if writer_adds_bom d then match t with [] => [] | _ => [AppendTmp [BOM]] end else []).
  { unfold bomev. rewrite H3. reflexivity. }
  assert (Hbt : forallb tmp_only bomev = true).
  { rewrite Hb. destruct (writer_adds_bom d); [|reflexivity]. destruct t; reflexivity. }
  assert (Hat : forall ps, forallb tmp_only (map AppendTmp ps) = true).
  { induction ps; [reflexivity|assumption]. }
  assert (Ht : tmp (exec {| main := Some file; tmp := None |} ([CreateTmp; TruncTmp] ++ bomev ++ map AppendTmp parts))
               = Some (file_text d t)).
  { rewrite !exec_app, exec_appends, Hb. unfold file_text.
    destruct (writer_adds_bom d).
    - destruct t as [|c t].
      + destruct parts; cbn; [reflexivity|]. cbn in H3. rewrite H3. reflexivity.
      + destruct parts; [discriminate|]. rewrite H3. reflexivity.
    - destruct parts; [cbn in H3; subst t; reflexivity|]. cbn [tmp exec fold_left apply_event getdef app]. rewrite H3.
      destruct t; reflexivity. }
  exists rows, outs, (file_text d t), ([CreateTmp; TruncTmp] ++ bomev ++ map AppendTmp parts).
  split; [reflexivity|]. split; [exact H1|]. split; [exact Hnew|]. split.
  - rewrite H4. change (CreateTmp :: TruncTmp :: (bomev ++ map AppendTmp parts) ++ move_events same (file_text d t))
      with (([CreateTmp; TruncTmp] ++ bomev ++ map AppendTmp parts) ++ move_events same (file_text d t)).
    rewrite exec_app. apply exec_move, Ht.
  - split; [rewrite H4; reflexivity|]. split; [|exact Ht].
    rewrite !forallb_app, Hbt, Hat. reflexivity.
Qed.
