(** C66: csvw2datasette. *)
From Coq Require Import Permutation.
From Verif Require Import Dec PyStr Json Dsv DsvProofs4 Datatype Values Numeric Dialects Column Schema Table Zip Locate LocateSpec Files Meta MetaSpec MetaProofs Descr Load Group Sql Db DbSql DbSqlSpec DbSpec DbProofs Sqlite DbWrite DbWriteSpec Cli
  TableProofs FrictionlessProofs2 ToSqlite ToSqliteSpec ToSqliteProofs1 ToSqliteProofs7 Datasette DatasetteProofs Props_DbRound Props_Rollback Props_Load Props_ToSqlite CliProofs2.
From Verif Require JsonText JsonTextSpec JsonTextProofs Props_JsonText.

Section Statements.
Variables (W : world value) (sc : scalars value) (expand : pystr -> dict value -> res pystr) (lim : N) (w : web) (env : fenv) (stem : pystr -> pystr) (P : py_fns) (St : store_fns) (bound_str : value -> pystr).
Notation convert := (csvw2datasette W sc expand lim w env stem P St bound_str).
Notation back := (datasette_read W sc expand lim w env stem P St bound_str).
Notation prepared := (datasette_prepare W sc expand lim w env stem bound_str).

(** What a run that writes has read: the metadata of the url, and the rows of all tables *)
Definition has_opened (fs : files) (url : pystr) (ks : list ktable) (tables : list tablespec) (items : list (pystr * list (dict value))) : Prop :=
  exists s, csvw_source W sc expand lim w env stem fs url = Ok s /\ ks = so_keyed s /\ source_specs bound_str s = Ok tables /\ source_read (so_tables s) = Ok items.

Lemma success fs url dir st dir' : convert fs url dir = (st, dir', Ok tt) -> exists s tables items st' D,
  csvw_source W sc expand lim w env stem fs url = Ok s /\ source_specs bound_str s = Ok tables /\ source_read (so_tables s) = Ok items /\ od_db dir = None /\
  write_file P St name_translator false false tables items None = (st', Some D, Ok tt) /\
  dir' = {| od_db := Some D; od_md := Some (JsonText.dumps JsonText.indented (JObj (datasette_metadata (so_common s)))) |} /\
  st = map (fun f => {| od_db := f; od_md := od_md dir |}) st' ++ [{| od_db := Some D; od_md := Some [] |}; dir'].
Proof.
  intros H. unfold csvw2datasette in H. destruct (prepared fs url) as [[[tables items] common]|] eqn:Ep; [|discriminate H].
  destruct (datasette_prepared _ _ _ _ _ _ _ _ _ _ _ _ _ Ep) as (s & Es & Et & Ei & ->). destruct (write_file P St name_translator false false tables items (od_db dir)) as [[st' final] r] eqn:Ew. destruct r as [[]|]; [|discriminate H].
  injection H as <- <-. destruct (od_db dir) as [D0|] eqn:Ed; [discriminate Ew|].
  assert (Ef : exists D, final = Some D). { unfold write_file in Ew. destruct (write_conn P St name_translator false tables items _). injection Ew as _ <- _. eexists. reflexivity. }
  destruct Ef as (D & ->). exists s, tables, items, st', D. auto 8.
Qed.
Theorem c66_round_trip fs url dir st dir' :
  (forall l, Permutation (scan St l) l) -> (forall l, Permutation (group_scan St l) l) -> types_fit W -> (forall s, s_str sc s = VStr s) ->
  convert fs url dir = (st, dir', Ok tt) ->
  exists ks tables items D, has_opened fs url ks tables items /\ od_db dir' = Some D /\
    (names_fit ks -> (forall s c, In s tables -> In c (ts_cols s) -> bounds_clean c) ->
     (forall k rows, In k ks -> In (url_of k, rows) items -> rows_fit P k rows) ->
     map fst items = map url_of ks /\
     exists out, back fs url D = Ok out /\
       forall k rows, In k ks -> In (url_of k, rows) items ->
       exists rows', Permutation rows' rows /\ Forall2 (row_kept k) rows' (rows_in out (url_of k))).
Proof.
  intros Hs Hgs Tf Ss H. destruct (success _ _ _ _ _ H) as (s & tables & items & st' & D & Es & Et & Ei & _ & Ew & -> & _).
  destruct (source_inv W sc expand lim w env stem fs url s Es) as (Hk & Fr & _).
  exists (so_keyed s), tables, items, D. split; [exists s; auto|]. split; [reflexivity|]. intros Nf Bc Rf.
  destruct (source_dtables W bound_str s tables Hk Et) as (ds & Ft & Sc). pose proof (source_items sc expand lim env fs _ _ items Fr Nf Ei) as Its.
  split; [apply (item_names sc _ items Its)|].
  destruct (converted W sc P St _ ds tables items Tf Ss Ft Sc Its Nf Bc Rf false None st' D Hs Hgs Ew) as (out & Ro & X). exists out. split; [|exact X].
  unfold datasette_read. rewrite Es. cbn [bind]. rewrite Et. cbn [bind]. rewrite (names_read sc expand lim env fs _ _ Fr (nf_tables _ Nf)). exact Ro.
Qed.
(** in the order of the file, if the database returns rows in the order in which they were inserted *)
Theorem c66_order fs url dir st dir' :
  (forall l, scan St l = l) -> (forall l, group_scan St l = l) -> types_fit W -> (forall s, s_str sc s = VStr s) ->
  convert fs url dir = (st, dir', Ok tt) ->
  exists ks tables items D, has_opened fs url ks tables items /\ od_db dir' = Some D /\
    (names_fit ks -> (forall s c, In s tables -> In c (ts_cols s) -> bounds_clean c) ->
     (forall k rows, In k ks -> In (url_of k, rows) items -> rows_fit P k rows) ->
     map fst items = map url_of ks /\
     exists out, back fs url D = Ok out /\
       forall k rows, In k ks -> In (url_of k, rows) items ->
       Forall2 (fun r o => row_kept k r o /\ forall h, is_list_key k h -> dget str_eqb o h = Some (PList (map (fun t => Some (VStr t)) (listed r h)))) rows (rows_in out (url_of k))).
Proof.
  intros Hs Hgs Tf Ss H. destruct (success _ _ _ _ _ H) as (s & tables & items & st' & D & Es & Et & Ei & _ & Ew & -> & _).
  destruct (source_inv W sc expand lim w env stem fs url s Es) as (Hk & Fr & _).
  exists (so_keyed s), tables, items, D. split; [exists s; auto|]. split; [reflexivity|]. intros Nf Bc Rf.
  destruct (source_dtables W bound_str s tables Hk Et) as (ds & Ft & Sc). pose proof (source_items sc expand lim env fs _ _ items Fr Nf Ei) as Its.
  split; [apply (item_names sc _ items Its)|].
  destruct (converted_order W sc P St _ ds tables items Tf Ss Ft Sc Its Nf Bc Rf false None st' D Hs Hgs Ew) as (out & Ro & X). exists out. split; [|exact X].
  unfold datasette_read. rewrite Es. cbn [bind]. rewrite Et. cbn [bind]. rewrite (names_read sc expand lim env fs _ _ Fr (nf_tables _ Nf)). exact Ro.
Qed.

(** ** The metadata for datasette: title, description and license of the metadata of the url, whether of a group or of a table *)
Definition shown : list pystr := [lit "title"; lit "description"; lit "license"].
Lemma metadata_get common k : dget str_eqb (datasette_metadata common) k = if in_dec str_eq_dec k shown then dget str_eqb common (lit "dc:" ++ k) else None.
Proof.
  unfold datasette_metadata, shown. set (f := fun k => match dget str_eqb common (lit "dc:" ++ k) with Some v => [(k, v)] | None => [] end).
  assert (G : forall l, dget str_eqb (flat_map f l) k = if in_dec str_eq_dec k l then dget str_eqb common (lit "dc:" ++ k) else None).
  { induction l as [|a l IH]; [reflexivity|]. cbn [flat_map]. rewrite dget_app, IH. unfold f. destruct (in_dec str_eq_dec k (a :: l)) as [I|N].
    - destruct (str_eq_dec k a) as [<-|Na].
      + destruct (dget str_eqb common (lit "dc:" ++ k)) as [v|]; cbn [dget]; [rewrite str_eqb_refl; reflexivity|]. destruct (in_dec str_eq_dec k l); reflexivity.
      + destruct I as [<-|I]; [contradiction Na; reflexivity|]. destruct (in_dec str_eq_dec k l); [|contradiction]. destruct (dget str_eqb common (lit "dc:" ++ a)); cbn [dget]; [rewrite (proj2 (str_eqb_neq k a) Na)|]; reflexivity.
    - assert (Na : k <> a) by (intros ->; apply N; left; reflexivity). destruct (in_dec str_eq_dec k l) as [I|_]; [exfalso; apply N; right; exact I|].
      destruct (dget str_eqb common (lit "dc:" ++ a)); cbn [dget]; [rewrite (proj2 (str_eqb_neq k a) Na)|]; reflexivity. }
  apply G.
Qed.
Theorem c66_metadata fr fs url dir st dir' op :
  convert fs url dir = (st, dir', Ok tt) -> csvw_open w url None = Ok op -> wf_json (JObj (op_md op)) ->
  exists text md, od_md dir' = Some text /\ text = JsonText.dumps JsonText.indented (JObj md) /\
    (forall k, dget str_eqb md k = if in_dec str_eq_dec k shown then option_map (MetaSpec.clean (w_tag_ok W)) (dget str_eqb (op_md op) (lit "dc:" ++ k)) else None) /\
    ((forall k v, In k shown -> dget str_eqb (op_md op) (lit "dc:" ++ k) = Some v -> JsonTextSpec.good fr v /\ no_defect (w_tag_ok W) v) ->
     JsonText.loads fr text = Some (JObj md) /\ forall k, In k shown -> dget str_eqb md k = dget str_eqb (op_md op) (lit "dc:" ++ k)).
Proof.
  intros H Op Wf. destruct (success _ _ _ _ _ H) as (s & tables & items & st' & D & Es & _ & _ & _ & _ & -> & _).
  destruct (source_inv W sc expand lim w env stem fs url s Es) as (_ & _ & op' & j & C & o & Op' & Ej & HC & Fv & Ec). assert (op' = op) by (apply Ok_inj; rewrite <- Op, <- Op'; reflexivity). subst op'. clear Op'.
  assert (Fc : forall k, (forall F, fate_of F true (lit "dc:" ++ k) = FCommon)). { intros k F. unfold fate_of. cbn [lit app]. destruct (in_dec N.eq_dec 58 _) as [_|N]; [reflexivity|]. exfalso. apply N. right. right. left. reflexivity. }
  assert (Cm : forall k, dget str_eqb (so_common s) (lit "dc:" ++ k) = option_map (MetaSpec.clean (w_tag_ok W)) (dget str_eqb (op_md op) (lit "dc:" ++ k))).
  { intros k. rewrite Ec. destruct (is_url url).
    - destruct (from_url_same env stem url _ _ (lit "dc:" ++ k) Ej (Fc k)) as (kvs' & -> & E). rewrite <- E. apply (common_of W C kvs' o _ HC); [|exact Fv|apply Fc].
      apply (from_url_wf env stem url _ _ Wf Ej).
    - apply Ok_inj in Ej. subst j. apply (common_of W C _ o _ HC Wf Fv (Fc k)). }
  exists (JsonText.dumps JsonText.indented (JObj (datasette_metadata (so_common s)))), (datasette_metadata (so_common s)). split; [reflexivity|]. split; [reflexivity|].
  assert (M : forall k, dget str_eqb (datasette_metadata (so_common s)) k = if in_dec str_eq_dec k shown then option_map (MetaSpec.clean (w_tag_ok W)) (dget str_eqb (op_md op) (lit "dc:" ++ k)) else None).
  { intros k. rewrite metadata_get, Cm. reflexivity. }
  split; [exact M|]. intros Gd.
  assert (Same : forall k, In k shown -> dget str_eqb (datasette_metadata (so_common s)) k = dget str_eqb (op_md op) (lit "dc:" ++ k)).
  { intros k I. rewrite M. destruct (in_dec str_eq_dec k shown); [|contradiction]. destruct (dget str_eqb (op_md op) (lit "dc:" ++ k)) as [v|] eqn:E; [|reflexivity]. cbn [option_map]. rewrite clean_same; [reflexivity|]. apply (Gd k v I E). }
  split; [|exact Same]. apply Props_JsonText.c58_roundtrip; [right; reflexivity|]. constructor.
  - unfold datasette_metadata. cbn [flat_map]. destruct (dget str_eqb (so_common s) (lit "dc:" ++ lit "title")), (dget str_eqb (so_common s) (lit "dc:" ++ lit "description")), (dget str_eqb (so_common s) (lit "dc:" ++ lit "license"));
      cbn [app map fst]; repeat constructor; intros I; repeat (destruct I as [I|I]; [discriminate I|]); destruct I.
  - apply Forall_forall. intros [k v] I. assert (Ik : In k shown). { unfold datasette_metadata in I. apply in_flat_map in I. destruct I as (k' & Ik & I). destruct (dget _ _ _); [|destruct I]. destruct I as [I|[]]. injection I as <- _. exact Ik. }
    cbn [fst snd]. split.
    + destruct Ik as [<-|[<-|[<-|[]]]]; (split; [repeat constructor|]); intros a u x b E [Hh _]; unfold JsonTextSpec.high in Hh; assert (Iu : In u (a ++ u :: x :: b)) by (apply in_or_app; right; left; reflexivity); rewrite <- E in Iu;
        repeat (destruct Iu as [Iu|Iu]; [subst u; destruct Hh as [Hh _]; vm_compute in Hh; apply Hh; reflexivity|]); destruct Iu.
    + assert (Nd : NoDup (map fst (datasette_metadata (so_common s)))).
      { unfold datasette_metadata. cbn [flat_map]. destruct (dget str_eqb (so_common s) (lit "dc:" ++ lit "title")), (dget str_eqb (so_common s) (lit "dc:" ++ lit "description")), (dget str_eqb (so_common s) (lit "dc:" ++ lit "license"));
        cbn [app map fst]; repeat constructor; intros J; repeat (destruct J as [J|J]; [discriminate J|]); destruct J. }
      apply (JsonTextProofs.dget_In_unique _ _ _ Nd) in I. rewrite (Same k Ik) in I. apply (Gd k v Ik I).
Qed.

(** ** Existing files and failures *)
(** An existing database is never changed, and nothing is written then; if the metadata and the tables can be read, this is reported as a ValueError *)
Theorem c66_existing fs url dir D : od_db dir = Some D ->
  exists e, convert fs url dir = ([], dir, Err e) /\ forall x, prepared fs url = Ok x -> e = ValueError.
Proof.
  intros E. unfold csvw2datasette. destruct (prepared fs url) as [[[tables items] common]|e] eqn:Ep.
  - exists ValueError. rewrite E. cbn [write_file map]. split; [|reflexivity]. destruct dir as [x y]. cbn [od_db od_md] in *. subst x. reflexivity.
  - exists e. split; [reflexivity|]. intros x X. discriminate X.
Qed.
(** When it fails, the metadata file is as it was; so is the database, or there was none and there is one without rows *)
Theorem c66_failures fs url dir st dir' e : convert fs url dir = (st, dir', Err e) ->
  od_md dir' = od_md dir /\ Forall (fun d => od_md d = od_md dir) st /\
  ((dir' = dir /\ st = []) \/ (od_db dir = None /\ exists D, od_db dir' = Some D /\ row_free D)).
Proof.
  intros H. unfold csvw2datasette in H. destruct (prepared fs url) as [[[tables items] common]|e'] eqn:Ep.
  - destruct (write_file P St name_translator false false tables items (od_db dir)) as [[st' final] r] eqn:Ew. destruct r as [u|e1]; [discriminate H|]. injection H as <- <- ->. cbn [od_md od_db]. split; [reflexivity|].
    split; [apply Forall_forall; intros d I; apply in_map_iff in I; destruct I as (f & <- & _); reflexivity|].
    destruct (od_db dir) as [D0|] eqn:Ed.
    + left. cbn [write_file] in Ew. injection Ew as <- <- _. split; [destruct dir as [x y]; cbn in *; subst x; reflexivity|reflexivity].
    + right. split; [reflexivity|]. destruct (c43_failed _ _ _ _ _ _ _ _ _ _ _ Ew) as [(_ & X & _)|X]; [contradiction X; reflexivity|exact X].
  - injection H as <- <- <-. split; [reflexivity|]. split; [constructor|]. left. split; reflexivity.
Qed.
(** At any moment, the metadata file is as it was before, or the database is complete; before that it has no rows *)
Theorem c66_complete_first fs url dir st dir' r : convert fs url dir = (st, dir', r) ->
  forall d, In d st -> (od_md d = od_md dir /\ (od_db d = od_db dir \/ od_db d = None \/ exists D, od_db d = Some D /\ row_free D)) \/ (r = Ok tt /\ od_db d = od_db dir').
Proof.
  intros H d I. unfold csvw2datasette in H. destruct (prepared fs url) as [[[tables items] common]|e'] eqn:Ep; [|injection H as <- <- <-; destruct I].
  destruct (write_file P St name_translator false false tables items (od_db dir)) as [[st' final] r'] eqn:Ew. pose proof (c43_all_or_nothing _ _ _ _ _ _ _ _ _ _ _ Ew) as A.
  assert (X : In d (map (fun f => {| od_db := f; od_md := od_md dir |}) st') -> od_md d = od_md dir /\ (od_db d = od_db dir \/ od_db d = None \/ exists D, od_db d = Some D /\ row_free D)).
  { intros J. apply in_map_iff in J. destruct J as (f & <- & J). cbn [od_db od_md]. split; [reflexivity|]. exact (A f J). }
  destruct r' as [[]|e1]; injection H as <- <- <-; [|left; apply X, I]. apply in_app_or in I. destruct I as [I|[<-|[<-|[]]]]; [left; apply X, I| |]; right; split; reflexivity.
Qed.
(** A second run changes nothing: there is a database *)
Theorem c66_once fs url dir st dir' : convert fs url dir = (st, dir', Ok tt) -> forall fs' url', exists e, convert fs' url' dir' = ([], dir', Err e).
Proof.
  intros H fs' url'. destruct (success _ _ _ _ _ H) as (s & tables & items & st' & D & _ & _ & _ & _ & _ & -> & _). destruct (c66_existing fs' url' {| od_db := Some D; od_md := Some (JsonText.dumps JsonText.indented (JObj (datasette_metadata (so_common s)))) |} D eq_refl) as (e & E & _). exists e. exact E.
Qed.
End Statements.
Print Assumptions c66_round_trip.
Print Assumptions c66_order.
Print Assumptions c66_metadata.
Print Assumptions c66_existing.
Print Assumptions c66_failures.
Print Assumptions c66_complete_first.
Print Assumptions c66_once.

From Coq Require Import String. Local Open Scope string_scope. Local Open Scope list_scope.
(** *** Examples: local files; metadata of a group, of a table, or none *)
Definition w66 (j : json) (fs : files) : web := {|
  wb_head := fun _ => Err OtherError; wb_get := fun _ => Err OtherError; wb_join := fun b s => b ++ s; wb_expand := fun t u => Ok t;
  wb_json := fun t => if str_eqb t (lit "{...}") then Some j else None;
  wb_file := fun u => match fs (norm u) with Some (Plain t) => Some t | _ => None end; wb_path := norm; wb_name := path_name |}.
Definition env66 (j : json) : fenv := {| fe_isdir := fe_isdir (env65 j); fe_join := fun b s => joinpath (parent b) s; fe_get := fe_get (env65 j); fe_dumps := fe_dumps (env65 j); fe_loads := fe_loads (env65 j) |}.
Notation src66 j fs url := (csvw_source w65 sc0 expand0 131072 (w66 j fs) (env66 j) (fun u => u) fs url).
Definition run66 j fs url dir := csvw2datasette w65 sc0 expand0 131072 (w66 j fs) (env66 j) (fun u => u) toy_py toy_store no_bounds fs url dir.
Definition empty_dir : outdir := {| od_db := None; od_md := None |}.
(** the rows of the database, and the metadata *)
Definition outcome66 j fs url :=
  match run66 j fs url empty_dir with
  | (_, dir, Ok _) => match od_db dir with
                      | Some D => rows <- datasette_read w65 sc0 expand0 131072 (w66 j fs) (env66 j) (fun u => u) toy_py toy_store no_bounds fs url D ;; Ok (rows, od_md dir)
                      | None => Err OtherError end
  | (_, _, Err e) => Err e
  end.
Definition with_props (props : list (String.string * json)) (j : json) : json := match j with JObj kvs => JObj (jo props ++ kvs) | j => j end.
Definition doc66 : json := with_props [("dc:title", js "T"); ("dc:license", JObj (jo [("@id", js "http://example.org/l")])); ("dc:creator", js "C")] doc65.
Example c66_result : outcome66 doc66 data65 md65 = (rows <- outcome65 doc65 data65 ;;
  Ok (rows, Some (lit "{" ++ [10] ++ lit "    ""title"": ""T""," ++ [10] ++ lit "    ""license"": {" ++ [10] ++ lit "        ""@id"": ""http://example.org/l""" ++ [10] ++ lit "    }" ++ [10] ++ lit "}"))).
Proof. vm_compute. reflexivity. Qed.
Definition ks66 : list ktable := match src66 doc66 data65 md65 with Ok s => so_keyed s | Err _ => [] end.
Lemma facts66 : map facts ks66 = facts_list.
Proof. vm_compute. reflexivity. Qed.
Definition tables66 : list tablespec := match src66 doc66 data65 md65 with Ok s => match source_specs no_bounds s with Ok t => t | Err _ => [] end | Err _ => [] end.
Lemma opened66 : has_opened w65 sc0 expand0 131072 (w66 doc66 data65) (env66 doc66) (fun u => u) no_bounds data65 md65 ks66 tables66 rows65.
Proof.
  assert (A : match src66 doc66 data65 md65 with Ok s => match source_specs no_bounds s, source_read (so_tables s) with Ok _, Ok r => Some r | _, _ => None end | Err _ => None end = Some rows65) by (vm_compute; reflexivity).
  unfold ks66, tables66. destruct (src66 doc66 data65 md65) as [s|] eqn:E; [|discriminate A]. exists s. split; [exact E|]. split; [reflexivity|]. destruct (source_specs no_bounds s) as [t|]; [|discriminate A].
  split; [reflexivity|]. destruct (source_read (so_tables s)); [|discriminate A]. f_equal. injection A as A. exact A.
Qed.
Example c66_nonvacuous :
  (forall l, scan toy_store l = l) /\ (forall l, group_scan toy_store l = l) /\ types_fit w65 /\ (forall s, s_str sc0 s = VStr s) /\
  (exists st dir, run66 doc66 data65 md65 empty_dir = (st, dir, Ok tt)) /\
  has_opened w65 sc0 expand0 131072 (w66 doc66 data65) (env66 doc66) (fun u => u) no_bounds data65 md65 ks66 tables66 rows65 /\
  names_fit ks66 /\ (forall s c, In s tables66 -> In c (ts_cols s) -> bounds_clean c) /\
  (forall k rows, In k ks66 -> In (url_of k, rows) rows65 -> rows_fit toy_py k rows) /\
  (exists k, In k ks66 /\ is_list_key k (lit "Langs")) /\
  (exists op, csvw_open (w66 doc66 data65) md65 None = Ok op /\ wf_json (JObj (op_md op)) /\
     forall fr k v, In k shown -> dget str_eqb (op_md op) (lit "dc:" ++ k) = Some v -> JsonTextSpec.good fr v /\ no_defect (w_tag_ok w65) v).
Proof.
  split; [reflexivity|]. split; [reflexivity|]. split; [exact w65_fit|]. split; [reflexivity|]. split; [eexists _, _; vm_compute; reflexivity|]. split; [exact opened66|].
  destruct (two65 ks66 facts66) as (k1 & k2 & Ek & T1 & T2). split; [apply (fit65 ks66 k1 k2 Ek T1 T2)|].
  split; [|split; [intros k rows; apply (rows_fit65 ks66 k rows facts66)|split; [exists k1; rewrite Ek; split; [left; reflexivity|]; exists (lit "langs.csv"), (lit "ID"); apply (key1_is k1 T1)|]]].
  - assert (B : forallb (fun s => forallb (fun c => match cs_csvw c with None => true | Some d => match di_min d, di_max d with None, None => true | _, _ => false end end) (ts_cols s)) tables66 = true) by (vm_compute; reflexivity).
    intros s c Is Ic. rewrite forallb_forall in B. specialize (B s Is). rewrite forallb_forall in B. specialize (B c Ic). unfold bounds_clean. destruct (cs_csvw c) as [d|]; [|exact I]. destruct (di_min d), (di_max d); try discriminate B. split; intros ? X; discriminate X.
  - eexists. split; [vm_compute; reflexivity|]. cbn [op_md]. split; [Props_Descr.wf|]. intros fr k v Ik G.
    assert (Gs : forall s, Forall (fun c => c < 128) s -> JsonTextSpec.good_str s).
    { intros s F. split; [eapply Forall_impl; [|exact F]; intros c L; eapply N.lt_trans; [exact L|reflexivity]|]. intros a u x b -> [Hh _]. apply Forall_app in F. destruct F as [_ F]. inversion F as [|? ? L _]; subst. destruct Hh as [Hh _]. apply (N.lt_irrefl 128). eapply N.lt_trans; [|eapply N.le_lt_trans; [exact Hh|exact L]]. reflexivity. }
    destruct Ik as [<-|[<-|[<-|[]]]]; apply (f_equal (fun o => match o with Some x => x | None => JNull end)) in G; vm_compute in G; try (subst v).
    + split; [constructor; apply Gs; repeat constructor|]. intros kvs X. inversion X.
    + split; [constructor|]. intros kvs X. inversion X.
    + split; [constructor; [repeat constructor; intros []|]; repeat constructor; try (apply Gs; repeat constructor)|].
      intros kvs X. inversion X; subst; [|match goal with J : In _ _ |- _ => destruct J as [J|[]]; injection J as <- <- end; match goal with H : _ <> lit "@id" |- _ => contradiction H; reflexivity end].
      split; [intros x [J|[]]; injection J as <-; eexists; reflexivity|intros x [J|[]]; discriminate J].
Qed.

(** *** What does not work *)
(** A CSV file without any metadata has no columns for the database: this fails, and leaves an empty database, so that no other run in this directory can succeed *)
Definition plain66 := fs65 [("t.csv", ["A,B"; "1,2"])].
Definition left66 j fs url dir := match run66 j fs url dir with (_, d, r) => (option_map (map (fun t => (tb_name t, tb_rows t))) (od_db d), od_md d, r) end.
Definition lone66 := with_props [("@context", js "http://www.w3.org/ns/csvw"); ("dc:title", js "T")] (jtab "t.csv" [jcol "A" []; jcol "B" []] "A" []).
Theorem c66_plain_csv_refuted :
  left66 JNull plain66 (lit "d/t.csv") empty_dir = (Some [], None, Err OtherError) /\
  (let dir := match run66 JNull plain66 (lit "d/t.csv") empty_dir with (_, d, _) => d end in
   snd (left66 lone66 plain66 md65 dir) = Err ValueError /\ snd (left66 lone66 plain66 md65 empty_dir) = Ok tt).
Proof. split; [vm_compute; reflexivity|]. split; vm_compute; reflexivity. Qed.
Print Assumptions c66_plain_csv_refuted.
(** So does a row that cannot be inserted; with the error corrected, the next run fails *)
Theorem c66_retry_refuted :
  let bad := fs65 [("t.csv", ["A,B"; "1,2"; "1,3"])] in
  left66 lone66 bad md65 empty_dir = (Some [(lit "t.csv", [])], None, Err IntegrityError) /\
  (let dir := match run66 lone66 bad md65 empty_dir with (_, d, _) => d end in snd (left66 lone66 plain66 md65 dir) = Err ValueError).
Proof. split; vm_compute; reflexivity. Qed.
Print Assumptions c66_retry_refuted.
(** Columns whose name starts with an underscore or contains white space lose it, unlike in csvw2sqlite: they are called by their title; without title their table cannot be read *)
Theorem c66_names_refuted :
  let t more := jgroup [jtab "t.csv" [jcol "A" []; jcol "_B" more] "A" []] in
  outcome66 (t [("titles", js "X")]) (fs65 [("t.csv", ["A,X"; "1,2"])]) md65 = Ok ([(lit "t.csv", [map cell [("A", str "1"); ("X", str "2")]])], Some (lit "{}")) /\
  outcome65 (t [("titles", js "X")]) (fs65 [("t.csv", ["A,X"; "1,2"])]) = Ok [(lit "t.csv", [map cell [("A", str "1"); ("_B", str "2")]])] /\
  outcome66 (t []) (fs65 [("t.csv", ["A,_B"; "1,2"])]) md65 = Err ValueError /\
  outcome65 (t []) (fs65 [("t.csv", ["A,_B"; "1,2"])]) = Ok [(lit "t.csv", [map cell [("A", str "1"); ("_B", str "2")]])].
Proof. repeat split; vm_compute; reflexivity. Qed.
Print Assumptions c66_names_refuted.
(** the properties have to be written with the prefix dc *)
Theorem c66_prefix_refuted : datasette_metadata (jo [("dcterms:title", js "T"); ("http://purl.org/dc/terms/title", js "T")]) = [].
Proof. reflexivity. Qed.
Print Assumptions c66_prefix_refuted.
