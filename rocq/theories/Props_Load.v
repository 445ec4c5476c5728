(** C62: metadata takes effect.  Vocabulary: LoadSpec.v (what the JSON says); FilesSpec.v, DescrSpec.v for the last theorem.
    [W]: URLs that are followed, codecs, language tags and parsing of values; [dtype_of]: what a datatype object does with cells. *)
From Verif Require Import PyStr PyCsv Dsv DsvSpec DsvProofs4 Json NatLang Dialects Datatype DatatypeSpec Meta MetaSpec Column ColumnSpec ColumnProofs Schema Table TableSpec TableProofs5 Zip Locate LocateSpec
  Files FilesSpec Descr DescrSpec Load LoadSpec LoadProofs LoadProofs2 LoadProofs3 LoadProofs4 LoadProofs5 Props_Descr Props_Files.

(** A table that is loaded has the url, the dialect, the language and the columns that its JSON describes;
    so has each table of a group, with the group's object as the outermost level. *)
Theorem c62_table : forall B V (W : world B) (dtype_of : mobj B -> dtype V) csvw t x,
  (forall u j, w_fetch_schema W u = Some j -> wf_json j) -> (forall u a j, w_fetch_dialect W u a = Ok j -> wf_json j) ->
  wf_json (JObj t) -> table_from_json W dtype_of csvw (JObj t) = Ok x -> table_described W dtype_of csvw [] t x.
Proof. intros. eapply table_loaded; eassumption. Qed.
Print Assumptions c62_table.
Theorem c62_group : forall B V (W : world B) (dtype_of : mobj B -> dtype V) csvw g x,
  (forall u j, w_fetch_schema W u = Some j -> wf_json j) -> (forall u a j, w_fetch_dialect W u a = Ok j -> wf_json j) ->
  wf_json (JObj g) -> group_from_json W dtype_of csvw (JObj g) = Ok x -> group_described W dtype_of csvw g x.
Proof. intros. eapply group_loaded; eassumption. Qed.
Print Assumptions c62_group.

(** A datatype reads and accepts what its JSON says: name, format, lengths, bounds. *)
Theorem c62_datatype : forall B (W : world B) j o, wf_json j -> datatype_fromvalue W j = Ok o -> datatype_says W j (load_dtype W o).
Proof. intros. apply datatype_loaded; assumption. Qed.
Print Assumptions c62_datatype.

(** The dialect: a description without members is the default dialect, and every suitable member takes effect *)
Theorem c62_dialect : forall B (W : world B) d a x, wf_json (JObj d) -> new_dialect W (JObj d) = Ok a -> to_dialect a = Some x -> dialect_says (w_codec W) d x.
Proof. intros B W d a x Wf H T. exact (dialect_from W (JObj d) a x Wf H T). Qed.
Print Assumptions c62_dialect.
Theorem c62_dialect_default : forall codec x, dialect_says codec [] x <-> x = meta_dialect.
Proof.
  intros codec x. split.
  - intros [H1 H2 H3 H4 H5 H6 H7 H8 H9 H10 H11 H12 H13 H14]. assert (H7' : d_header x = true) by (apply H7; intros j E; discriminate E).
    destruct x. cbn in *. subst. reflexivity.
  - intros ->. constructor; try reflexivity; intros (j & E & _); discriminate E.
Qed.
Print Assumptions c62_dialect_default.

(** Cells: a column for which no level says anything has the text of its cells, None for empty ones. *)
Theorem c62_plain_column : forall B V (W : world B) (dtype_of : mobj B -> dtype V) (sc : scalars V) csvw levels col n c,
  column_described W dtype_of csvw (col :: levels) col n c ->
  (forall d k, In d (col :: levels) -> In k (map lit ["required"; "null"; "separator"; "datatype"; "default"]%string) -> member d k = None) ->
  forall s, fst (col_read sc true (tc_st c) s) = Ok (match s with [] => PNone | _ => POne (s_str sc s) end).
Proof.
  intros B V W dtype_of sc csvw levels col n c D M s.
  assert (K : forall k (given : json -> Prop) r, In k (map lit ["required"; "null"; "separator"; "datatype"; "default"]%string) -> nearest_value given k (col :: levels) r -> r = None).
  { intros k given r Hk Hn. inversion Hn as [|before d after j _ Hm _ Eq]; subst; [reflexivity|]. exfalso.
    assert (X : member d k = None) by (apply M; [rewrite <- Eq; apply in_or_app; right; left; reflexivity|exact Hk]). congruence. }
  destruct (cd_null _ _ _ _ _ _ _ D) as (r1 & N1 & S1). apply K in N1; [|cbn; tauto]. subst r1.
  destruct (cd_required _ _ _ _ _ _ _ D) as (r2 & N2 & S2). apply K in N2; [|cbn; tauto]. subst r2.
  destruct (cd_separator _ _ _ _ _ _ _ D) as (r3 & N3 & S3). apply K in N3; [|cbn; tauto]. subst r3.
  destruct (cd_datatype _ _ _ _ _ _ _ D) as (r4 & N4 & S4). apply K in N4; [|cbn; tauto]. subst r4.
  pose proof (cd_default _ _ _ _ _ _ _ D) as S5. rewrite (M col (lit "default") (or_introl eq_refl)) in S5 by (cbn; tauto).
  assert (Sp : st_separator (tc_st c) = None) by (destruct (st_separator (tc_st c)); [destruct S3; congruence|reflexivity]).
  assert (Dt : st_datatype (tc_st c) = None) by (destruct (st_datatype (tc_st c)); [destruct S4 as (j & o & E & _); discriminate E|reflexivity]).
  assert (Rq : st_required (tc_st c) = false) by (destruct (st_required (tc_st c)); [destruct (proj1 S2 eq_refl) as (j & E & _); discriminate E|reflexivity]).
  apply col_read_spec; [congruence|]. destruct s as [|x s].
  - apply (cr_scalar sc (tc_st c) [] [] (Ok None)); [left; split; congruence|intros [X _]; congruence|exact Sp|]. apply vr_null. rewrite S1. left; reflexivity.
  - apply (cr_scalar sc (tc_st c) (x :: s) (x :: s) (Ok (Some (s_str sc (x :: s))))); [right; split; congruence|intros [X _]; congruence|exact Sp|].
    apply vr_string; [rewrite S1; intros [X|[]]; discriminate X|exact Dt].
Qed.
Print Assumptions c62_plain_column.

(** Round trip: a group that was loaded from JSON is written, its metadata file is loaded again and read: the rows are back. *)
Theorem c62_files : forall B V (W : world B) (dtype_of : mobj B -> dtype V) csvw (sc : scalars V) expand (env : fenv) pv lim j0 o (g : fgroup V) j d m strict zipped fs (items : list (pystr * list (dict V))),
  w_codec W (lit "utf-8") = CKnown -> (forall u j, w_fetch_schema W u = Some j -> wf_json j) ->
  wf_json j0 -> fromvalue W (TableGroup_class W) j0 = Ok o -> group_survives W o -> group_from_json W dtype_of csvw j0 = Ok g ->
  plain_group g -> plain_dir d -> fe_isdir env d = true -> component m -> no_clash zipped m (map fst items) -> gr_base g = None -> expands expand ->
  (forall t, In t (gr_tables g) -> In (t_url t) (map fst items)) ->
  (forall n rows, In (n, rows) items -> exists t dl, named g n t /\ can_create env (in_dir d n) /\ has_dialect g t dl /\ storable sc pv lim zipped dl (t_cols t) rows) ->
  can_create env (in_dir d m) -> gr_doc g = Ok j -> fe_loads env (fe_dumps env j) = Some j ->
  exists fs' g' D, group_write sc env pv lim g strict zipped fs (in_dir d m) (map (fun i => (fst i, map IDict (snd i))) items) = (fs', Ok tt) /\
    from_file env (group_from_json W dtype_of csvw) fs' (in_dir d m) = Ok g' /\ group_read sc expand env lim g' fs' = Ok D /\
    NoDup (map fst D) /\ (forall n, In n (map fst D) <-> In n (map fst items)) /\
    forall n rows, In (n, rows) items -> exists t ds, named g n t /\ In (n, ds) D /\ Forall2 (same_values (t_cols t)) ds rows.
Proof.
  intros B V W dtype_of csvw sc expand env pv lim j0 o g j d m strict zipped fs items U Sw Wf Fo Sv L G D I M C Bs X All Ok_ Cm J Jl.
  assert (Lg : load_group W dtype_of csvw o = Ok g) by (unfold group_from_json in L; rewrite Fo in L; exact L).
  assert (Ld : group_from_json W dtype_of csvw j = Ok g).
  { assert (Dj : (x <- asdict (TableGroup_class W) true o ;; Ok (JObj x)) = Ok j).
    { unfold load_group in Lg. destruct (nth 17 (o_vals o) (MJ JNull)); try discriminate Lg.
      destruct (mapM (load_table dtype_of csvw (Some o)) l) as [tables|]; [|discriminate Lg]. cbn [bind] in Lg.
      destruct (load_dialect _) as [dl|]; [|discriminate Lg]. cbn [bind] in Lg. destruct (at_str _ _) as [b|]; [|discriminate Lg]. cbn [bind] in Lg.
      destruct (context_base _) as [ctx|]; [|discriminate Lg]. cbn [bind] in Lg. apply Ok_inj in Lg. subst g. exact J. }
    destruct (asdict (TableGroup_class W) true o) as [d'|] eqn:E; [|discriminate Dj]. cbn [bind] in Dj. apply Ok_inj in Dj. subst j.
    unfold group_from_json. rewrite (c35_group W true j0 o d' U Sw Wf Fo Sv E). exact Lg. }
  apply (c55_round_trip V sc expand env pv lim (group_from_json W dtype_of csvw) g g j); try assumption. repeat split.
Qed.
Print Assumptions c62_files.

(** *** Examples *)
Definition sc1 : scalars pystr := {| s_str := fun s => s; s_cell := CStr; s_truthy := fun s => match s with [] => false | _ => true end; s_iter := fun s => Ok (map (fun x => [x]) s); s_repr := fun _ => [] |}.
Definition expand1 : pystr -> dict pystr -> res pystr := fun u _ => Ok u.
Definition jo (l : list (String.string * json)) : object := map (fun kv => (lit (fst kv), snd kv)) l.
Definition js (s : String.string) : json := JStr (lit s).
(** null from the group, delimiter from the group's dialect, separator and required from the column, a key from titles *)
Definition tab_j : object := jo [("url", js "t.csv"); ("tableSchema", JObj (jo [
  ("columns", JList [JObj (jo [("name", js "ID"); ("required", JBool true); ("datatype", JObj (jo [("base", js "string"); ("maxLength", JInt 3)]))]);
                     JObj (jo [("titles", js "T")]);
                     JObj (jo [("name", js "tags"); ("separator", js "|"); ("null", JList [js "-"; js ""])]);
                     JObj (jo [("name", js "v"); ("virtual", JBool true); ("valueUrl", js "http://x")])])]))]%string.
Definition grp_j : object := jo [("@context", js "http://www.w3.org/ns/csvw"); ("dialect", JObj (jo [("delimiter", js ";")])); ("null", js "NA"); ("tables", JList [JObj tab_j])]%string.
Definition no_group : fgroup pystr := {| gr_tables := []; gr_dialect := None; gr_base := None; gr_ctx := None; gr_fname := None; gr_doc := Err OtherError |}.
Definition grp : fgroup pystr := get (group_from_json w0 (load_dtype w0) false (JObj grp_j)) no_group.
Example c62_nonvacuous :
  wf_json (JObj grp_j) /\ (exists g, group_from_json w0 (load_dtype w0) false (JObj grp_j) = Ok g) /\
  map (fun t => map (fun r => snd r) (io_rows (iterdicts sc1 expand1 131072 (Files.dialect_of grp t) (t_lang t) true false (t_cols t) (Props_Table.crlf ["ID;T;tags"; "1;NA;a|-"; "abc;;"]%string)))) (gr_tables grp) =
    [[[(lit "ID", POne (lit "1")); (lit "T", PNone); (lit "tags", PList [Some (lit "a"); None]); (lit "v", POne (lit "http://x"))];
      [(lit "ID", POne (lit "abc")); (lit "T", POne []); (lit "tags", PList []); (lit "v", POne (lit "http://x"))]]] /\
  (* abcd is longer than maxLength; NA is no ID *)
  map (fun s => map (fun t => io_end (iterdicts sc1 expand1 131072 (Files.dialect_of grp t) (t_lang t) true false (t_cols t) s)) (gr_tables grp))
    [Props_Table.crlf ["ID;T;tags"; "abcd;x;y"]%string; Props_Table.crlf ["ID;T;tags"; "NA;x;y"]%string; Props_Table.crlf ["ID;T;tags"; "ab;x;y"]%string] =
    [[Some ValueError]; [Some ValueError]; [None]].
Proof.
  split; [let x := eval vm_compute in grp_j in change (wf_json (JObj x)); wf|]. split; [eexists; vm_compute; reflexivity|]. split; vm_compute; reflexivity.
Qed.
(** the hypotheses of c62_files *)
Definition tab2_j : object := jo [("url", js "t.csv"); ("tableSchema", JObj (jo [("columns", JList [JObj (jo [("name", js "a"); ("datatype", js "string")]); JObj (jo [("name", js "b")])])]))]%string.
Definition grp2_j : object := jo [("null", js "NA"); ("tables", JList [JObj tab2_j])]%string.
Definition grp2_obj : mobj pystr := Eval vm_compute in get (fromvalue w0 (TableGroup_class w0) (JObj grp2_j)) nobj.
Definition grp2 : fgroup pystr := get (load_group w0 (load_dtype w0) false grp2_obj) no_group.
Definition grp2_doc : json := Eval vm_compute in get (gr_doc grp2) JNull.
Definition env2 : fenv := {| fe_isdir := fun p => str_mem p [lit "."; lit "d"]; fe_join := fun b s => b ++ s; fe_get := fun _ => Err OtherError; fe_dumps := fun _ => lit "{...}"; fe_loads := fun _ => Some grp2_doc |}.
Definition items2 : list (dict pystr) := [[(lit "a", POne (lit "x")); (lit "b", PNone)]].
Definition tab2 : ftable pystr := hd {| t_url := []; t_dialect := None; t_lang := []; t_cols := []; t_ctx := None |} (gr_tables grp2).
Lemma storable2 zipped : storable sc1 py_modern 131072 zipped meta_dialect (t_cols tab2) items2.
Proof.
  split; [exists 44, 34, [CR; LF]; split; [apply (DsvExamples.plain_dialect_sane true false)|right; reflexivity]|]. split; [reflexivity|]. split; [reflexivity|]. split; [repeat split|]. split; [discriminate|].
  split; [exists 2%nat; split; [intros c [<-|[<-|[]]]; reflexivity|intros c []]|]. split; [unfold distinct_headers; vm_compute; repeat constructor; cbn; intuition discriminate|]. split; [intros c [<-|[<-|[]]] E; discriminate E|].
  split; [|split].
  - intros kvs [<-|[]]. split; [cbn; repeat constructor; cbn; intuition discriminate|]. intros k. split.
    + intros [<-|[<-|[]]]; [exists (nth 0 (t_cols tab2) (anon_col 0))|exists (nth 1 (t_cols tab2) (anon_col 0))]; (split; [vm_compute; auto|split; reflexivity]).
    + intros (c & [<-|[<-|[]]] & _ & <-); vm_compute; auto.
  - intros kvs c v [<-|[]] [<-|[<-|[]]] _ E; vm_compute in E; injection E as <-; eexists; split; vm_compute; reflexivity.
  - intros rows HF. assert (R : rows = [[CStr (lit "x"); CStr (lit "NA")]]).
    { apply Forall2_nth in HF. destruct HF as [F1 F2]. destruct rows as [|r1 [|]]; try discriminate. destruct (F2 0%nat _ eq_refl) as (b & X & Y). cbn in X. injection X as <-. apply item_row_iff in Y. vm_compute in Y. injection Y as <-. reflexivity. }
    rewrite R. split; [|split].
    + intros row s [<-|[<-|[]]] [<-|[<-|[]]]; vm_compute; discriminate.
    + intros _ _. vm_compute. intros. discriminate.
    + intros _ row cell [<-|[<-|[]]] [<-|[<-|[]]] I; vm_compute in I; repeat (destruct I as [I|I]; [discriminate I|]); exact I.
Qed.
Lemma grp2_loads : group_from_json w0 (load_dtype w0) false (JObj grp2_j) = Ok grp2.
Proof. vm_compute. reflexivity. Qed.
Example c62_files_nonvacuous : forall zipped,
  wf_json (JObj grp2_j) /\ fromvalue w0 (TableGroup_class w0) (JObj grp2_j) = Ok grp2_obj /\ group_survives w0 grp2_obj /\ group_from_json w0 (load_dtype w0) false (JObj grp2_j) = Ok grp2 /\
  plain_group grp2 /\ no_clash zipped (lit "md.json") [lit "t.csv"] /\ gr_base grp2 = None /\ (forall t, In t (gr_tables grp2) -> In (t_url t) [lit "t.csv"]) /\
  (forall n rows, In (n, rows) [(lit "t.csv", items2)] -> exists t dl, named grp2 n t /\ can_create env2 (in_dir (lit "d") n) /\ has_dialect grp2 t dl /\ storable sc1 py_modern 131072 zipped dl (t_cols t) rows) /\
  can_create env2 (in_dir (lit "d") (lit "md.json")) /\ gr_doc grp2 = Ok grp2_doc /\ fe_loads env2 (fe_dumps env2 grp2_doc) = Some grp2_doc.
Proof.
  intros zipped. split; [let x := eval vm_compute in grp2_j in change (wf_json (JObj x)); wf|]. split; [vm_compute; reflexivity|]. split; [unfold grp2_obj; obj|]. split; [exact grp2_loads|].
  split; [intros t [<-|[]]; apply FilesProofs.plain_one; comp|]. split; [split; [repeat constructor; intros []|split; [cbn; intuition discriminate|intros _ n [<-|[]]; cbn; intuition discriminate]]|].
  split; [reflexivity|]. split; [intros t [<-|[]]; left; reflexivity|].
  assert (Cr : forall n, component n -> fe_isdir env2 (in_dir (lit "d") n) = false -> can_create env2 (in_dir (lit "d") n)).
  { intros n C E. exists (lit "d"), n. split; [apply dir_d; comp|split; [exact C|split; [reflexivity|split; [reflexivity|exact E]]]]. }
  split; [|split; [apply Cr; [comp|reflexivity]|split; [vm_compute; reflexivity|reflexivity]]].
  intros n rows [E|[]]. injection E as <- <-. exists tab2, meta_dialect. split; [exists [], []; split; [reflexivity|split; [reflexivity|intros t []]]|]. split; [apply Cr; [comp|reflexivity]|].
  split; [right; split; [reflexivity|right; split; reflexivity]|apply storable2].
Qed.

(** *** What the JSON says but does not happen *)
(** A column with titles in a language only has no title: its key is its number.  Neither "default" nor "valueUrl" is inherited.
    "null": "" in a column does not undo the "null" of its table.  "lineTerminators" that is a string has no effect. *)
Definition keys_of (col : list (String.string * json)) : list pystr :=
  match table_from_json w0 (load_dtype w0) false (JObj (jo [("url", js "t.csv"); ("tableSchema", JObj (jo [("columns", JList [JObj (jo col)])]))]%string)) with
  | Ok t => map tc_header (t_cols t) | Err _ => [] end.
Definition settings_in (outer col : list (String.string * json)) : list (pystr * list pystr * option pystr) :=
  match table_from_json w0 (load_dtype w0) false (JObj (jo ([("url", js "t.csv"); ("tableSchema", JObj (jo [("columns", JList [JObj (jo col)])]))]%string ++ outer))) with
  | Ok t => map (fun c => (st_default (tc_st c), st_null (tc_st c), de_valueUrl (c_desc (tc_col c)))) (t_cols t) | Err _ => [] end.
Theorem c62_title_language_refuted : keys_of [("titles", JObj (jo [("en", js "T")]))]%string = [lit "_col.1"] /\ keys_of [("titles", js "T")]%string = [lit "T"].
Proof. split; vm_compute; reflexivity. Qed.
Theorem c62_default_inherited_refuted :
  settings_in [("default", js "d"); ("valueUrl", js "u")]%string [("name", js "a")]%string = [([], [[]], None)] /\
  settings_in [] [("name", js "a"); ("default", js "d"); ("valueUrl", js "u")]%string = [(lit "d", [[]], Some (lit "u"))].
Proof. split; vm_compute; reflexivity. Qed.
Theorem c62_null_undone_refuted :
  settings_in [("null", js "NA")]%string [("name", js "a"); ("null", js "")]%string = [([], [lit "NA"], None)] /\
  settings_in [("null", js "NA")]%string [("name", js "a"); ("null", js "-")]%string = [([], [lit "-"], None)].
Proof. split; vm_compute; reflexivity. Qed.
Theorem c62_lineTerminators_refuted :
  (exists a, new_dialect w0 (JObj (jo [("lineTerminators", JStr [LF])]%string)) = Ok a /\ to_dialect a = Some meta_dialect) /\
  (exists a x, new_dialect w0 (JObj (jo [("lineTerminators", JList [JStr [LF]])]%string)) = Ok a /\ to_dialect a = Some x /\ d_lineTerminators x = [[LF]]).
Proof. split; [eexists; split; vm_compute; reflexivity|eexists _, _; split; [vm_compute; reflexivity|split; vm_compute; reflexivity]]. Qed.
