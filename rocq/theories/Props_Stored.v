(** Property theorems C71, C72: what is written is valid.  Vocabulary: StoredSpec.v; storable: FilesSpec.v; cell_warned, header_fits: QuietSpec.v; primary_key_unique,
    integrity_holds, names_columns: GroupSpec.v; equivalence, expands: TableSpec.v. *)
From Verif Require Import PyStr PyCsv Dsv DsvSpec DsvExamples DsvProofs Json NatLang Column ColumnProofs Schema SchemaSpec Datatype Values Numeric Table TableSpec TableProofs TableProofs2 TableProofs3 TableProofs4 TableProofs5 TableProofs6
  Zip Group GroupSpec QuietSpec QuietProofs QuietProofs2 Files FilesSpec FilesProofs FilesProofs2 FilesProofs3 Props_Table Props_Zip Props_Quiet Props_Files StoredSpec StoredProofs2 StoredProofs3.
From Coq Require Import String. Local Open Scope string_scope. Local Open Scope list_scope.

(** Table.write writes each of the tables, and validation of the group with these files gives True exactly if the metadata was loaded without warnings, primary
    keys are unique and foreign keys hold among the rows in memory *)
Theorem c71_valid : forall V (veq : V -> V -> bool) (sc : scalars V) expand pv lim strict before loading (ts : list (@data V)), equivalence veq -> expands expand ->
  (forall t, In t ts -> presentable sc pv lim t) -> key_columns ts ->
  exists files, Forall2 (writes sc pv lim strict before) ts files /\
    (is_valid veq loading (map (on_disk sc lim expand) (combine ts files)) = Ok true <-> loading = [] /\ keys_hold veq ts).
Proof. intros V veq sc expand pv lim strict before loading ts H1 H2 H3 H4. exact (stored_valid veq H1 sc expand H2 pv lim strict before loading ts H3 H4). Qed.
Print Assumptions c71_valid.

(** The table of C27 (a: no datatype; n: a required integer; a virtual column), with primary key n, and one whose first column or second column refers to n *)
Definition veq0 (x y : value) : bool := match x, y with VInt a, VInt b => Z.eqb a b | VStr a, VStr b => str_eqb a b | VInt _, _ | VStr _, _ | _, VInt _ | _, VStr _ => false | _, _ => true end.
Lemma veq0_equivalence : equivalence veq0.
Proof.
  split; [|split].
  - intros []; cbn; auto using Z.eqb_refl, str_eqb_refl.
  - intros [] []; cbn; try discriminate; auto; [|rewrite Z.eqb_sym; auto]; intros H; apply str_eqb_eq in H; subst; apply str_eqb_refl.
  - intros [] [] []; cbn; try discriminate; auto; intros H1 H2; try (apply str_eqb_eq in H1, H2; subst; apply str_eqb_refl); apply Z.eqb_eq in H1, H2; subst; apply Z.eqb_refl.
Qed.
Definition tb (name : string) pk fks items : @data value := {| da_name := lit name; da_dialect := pd; da_lang := lit "und"; da_cols := cols0; da_pk := pk; da_fks := fks; da_items := items |}.
Definition fk_n (col : string) : fkey := {| fk_cols := [lit col]; fk_resource := Some (lit "t.csv"); fk_schemaReference := None; fk_refcols := [lit "n"] |}.
Definition t0 := tb "t.csv" (Some [lit "n"]) [] items0.
Definition u0 (col : string) := tb "u.csv" None [fk_n col] (firstn 1 items0).
Lemma storable1 zipped items : items = items0 \/ items = firstn 1 items0 -> storable sc0 py_modern 131072 zipped pd cols0 items.
Proof.
  intros [->| ->]; [apply storable0|]. destruct (storable0 zipped) as (S1 & S2 & S3 & S4 & S5 & S6 & S7 & S8 & S9 & S10 & _).
  assert (Sub : forall kvs, In kvs (firstn 1 items0) -> In kvs items0) by (intros k [<-|[]]; left; reflexivity).
  split; [exact S1|]. split; [exact S2|]. split; [exact S3|]. split; [exact S4|]. split; [exact S5|]. split; [exact S6|]. split; [exact S7|]. split; [exact S8|].
  split; [intros k H; exact (S9 k (Sub k H))|]. split; [intros k c v H; exact (S10 k c v (Sub k H))|].
  intros rows H. assert (E : rows = [[CStr (lit "x,y"); CStr (lit "1")]]).
  { apply Forall2_nth in H. destruct H as [H1 H2]. destruct rows as [|r1 [|]]; try discriminate. destruct (H2 0%nat _ eq_refl) as (b & X & Y). cbn in X. injection X as <-. apply item_row_iff in Y. vm_compute in Y. injection Y as <-. reflexivity. }
  rewrite E. split; [intros row s [<-|[<-|[]]] [<-|[<-|[]]]; vm_compute; discriminate|]. split; [intros _ _; vm_compute; intros; discriminate|].
  intros _ row cell [<-|[<-|[]]] [<-|[<-|[]]] I; vm_compute in I; repeat (destruct I as [I|I]; [discriminate I|]); exact I.
Qed.
Lemma presentable0 name pk fks items : items = items0 \/ items = firstn 1 items0 -> presentable sc0 py_modern 131072 (tb name pk fks items).
Proof.
  intros Hi. assert (Sub : forall kvs, In kvs items -> In kvs items0) by (destruct Hi as [->| ->]; [tauto|intros k [<-|[]]; left; reflexivity]).
  split; cbn [tb da_dialect da_cols da_items da_lang]; [exact (storable1 false items Hi)| | |].
  - intros _ c [<-|[<-|[<-|[]]]] Hv; try discriminate Hv; left; split; [reflexivity|discriminate|reflexivity|discriminate].
  - intros c [<-|[<-|[<-|[]]]]; discriminate.
  - intros kvs c v x Hin Hc Hv Hg Hw (ty & s & Hd & Hr & Hn). apply Sub in Hin.
    destruct Hc as [<-|[<-|[<-|[]]]]; try discriminate Hv; [discriminate Hd|]. injection Hd as <-.
    assert (N : col_noise (tc_st (nth 1 cols0 (anon_col 0))) (cell_text x) = true).
    { apply (noise_iff sc0); [discriminate|]. exists int_t, s. split; [reflexivity|]. split; [exact Hr|exact Hn]. }
    destruct Hin as [<-|[<-|[]]]; vm_compute in Hg; injection Hg as <-; vm_compute in Hw; apply Ok_inj in Hw; subst x; vm_compute in N; discriminate N.
Qed.
Lemma key_columns0 col : In col ["a"; "n"]%string -> key_columns [t0; u0 col].
Proof.
  intros Hc. assert (Na : forall t, In t (map in_memory [t0; u0 col]) -> forall k, In k [lit "a"; lit "n"] -> exists c, In c (g_cols t) /\ tc_virtual c = false /\ tc_header c = k).
  { intros t [<-|[<-|[]]] k [<-|[<-|[]]]; [exists (nth 0 cols0 (anon_col 0))|exists (nth 1 cols0 (anon_col 0))|exists (nth 0 cols0 (anon_col 0))|exists (nth 1 cols0 (anon_col 0))];
      (split; [first [left; reflexivity|right; left; reflexivity]|split; reflexivity]). }
  split; [|split].
  - intros t ks I E k H. apply (Na (in_memory t) (in_map _ _ _ I)). destruct I as [<-|[<-|[]]]; cbn in E; [|discriminate E]. injection E as <-. destruct H as [<-|[]]. right; left; reflexivity.
  - intros t fk I J k H. apply (Na (in_memory t) (in_map _ _ _ I)). destruct I as [<-|[<-|[]]]; [destruct J|]. destruct J as [<-|[]]. destruct H as [<-|[]]. destruct Hc as [<-|[<-|[]]]; cbn; auto.
  - intros child fk target (I & J & _ & r & _ & pre & post & E & _) k H.
    apply (Na target); [rewrite E; apply in_app_iff; right; left; reflexivity|]. destruct I as [<-|[<-|[]]]; [destruct J|]. destruct J as [<-|[]]. destruct H as [<-|[]]. right; left; reflexivity.
Qed.
Example c71_nonvacuous :
  equivalence veq0 /\ expands expand0 /\ (forall t, In t [t0; u0 "n"] -> presentable sc0 py_modern 131072 t) /\ key_columns [t0; u0 "n"] /\ keys_hold veq0 [t0; u0 "n"]
  /\ is_valid veq0 [] (map (on_disk sc0 131072 expand0) [(t0, crlf ["a,n"; """x,y"",1"; ",-20"]%string); (u0 "n", crlf ["a,n"; """x,y"",1"]%string)]) = Ok true
  (* not satisfied *)
  /\ (forall t, In t [t0; u0 "a"] -> presentable sc0 py_modern 131072 t) /\ key_columns [t0; u0 "a"] /\ ~ keys_hold veq0 [t0; u0 "a"]
  /\ is_valid veq0 [] (map (on_disk sc0 131072 expand0) [(t0, crlf ["a,n"; """x,y"",1"; ",-20"]%string); (u0 "a", crlf ["a,n"; """x,y"",1"]%string)]) = Err ValueError.
Proof.
  assert (P : forall col t, In t [t0; u0 col] -> presentable sc0 py_modern 131072 t) by (intros col t [<-|[<-|[]]]; apply presentable0; auto).
  split; [apply veq0_equivalence|]. split; [split; [intros u d; eexists; reflexivity|reflexivity]|]. split; [apply P|]. split; [apply key_columns0; cbn; auto|]. split; [|split; [vm_compute; reflexivity|]].
  - assert (V : is_valid veq0 [] (map in_memory [t0; u0 "n"]) = Ok true) by (vm_compute; reflexivity). apply (GroupProofs4.is_valid_iff veq0 veq0_equivalence) in V. destruct V as (_ & A & B & _).
    split; [|exact B]. intros t I. exact (proj2 (A _ (in_map in_memory _ _ I))).
  - split; [apply P|]. split; [apply key_columns0; cbn; auto|]. split; [|vm_compute; reflexivity]. intros [_ K]. apply (GroupProofs4.integrity_iff veq0 veq0_equivalence) in K. vm_compute in K. discriminate K.
Qed.

(** * C72: a written group is valid *)
(** TableGroup.write wrote the rows of all tables (of different URLs); then is_valid of the group read from there (see C55 for the location and for reading back the metadata)
    is True exactly if it was loaded without warnings, and the keys hold among the rows in memory - zipped or not *)
Theorem c72_group : forall V (veq : V -> V -> bool) (sc : scalars V) expand (env : fenv) pv lim (g g' : fgroup V) d m strict zipped fs items fs' loading (ts : list (@data V)),
  equivalence veq -> expands expand ->
  plain_group g -> plain_dir d -> fe_isdir env d = true -> component m -> no_clash zipped m (map fst items) -> NoDup (map t_url (gr_tables g)) ->
  same_description g g' -> Forall2 (describes g') (gr_tables g') ts -> (forall x, In x ts -> In (da_name x, map (@IDict V) (da_items x)) items) ->
  (forall x, In x ts -> presentable sc pv lim x /\ storable sc pv lim zipped (da_dialect x) (da_cols x) (da_items x)) -> key_columns ts ->
  group_write sc env pv lim g strict zipped fs (in_dir d m) items = (fs', Ok tt) ->
  (is_valid veq loading (map (from_files sc lim expand fs' d) ts) = Ok true <-> loading = [] /\ keys_hold veq ts).
Proof.
  intros V veq sc expand env pv lim g g' d m strict zipped fs items fs' loading ts Q X G D I M C N (S1 & S2 & _) Ds Its P K W.
  assert (Ds' : Forall2 (describes g) (gr_tables g) ts).
  { rewrite <- S1. revert Ds. apply F2_mono. intros t x (A & B & E & F). split; [exact A|]. split; [|auto]. unfold has_dialect in *. rewrite S2 in B. exact B. }
  exact (group_valid veq Q sc expand X env pv lim g d m strict zipped fs items fs' loading ts G D I M C N Ds' Its P K W).
Qed.
Print Assumptions c72_group.
(** And if the files can be created and the description is read back as it was, writing succeeds, and the group is read from the metadata file. *)
Theorem c72_round_trip : forall V (veq : V -> V -> bool) (sc : scalars V) expand (env : fenv) pv lim (load : json -> res (fgroup V)) (g g1 : fgroup V) j d m strict zipped fs (items : list (pystr * list (dict V))) loading (ts : list (@data V)),
  equivalence veq -> expands expand ->
  plain_group g -> plain_dir d -> fe_isdir env d = true -> component m -> no_clash zipped m (map fst items) -> NoDup (map t_url (gr_tables g)) -> gr_base g = None ->
  Forall2 (describes g) (gr_tables g) ts -> (forall n rows, In (n, rows) items <-> exists x, In x ts /\ da_name x = n /\ da_items x = rows) ->
  (forall x, In x ts -> presentable sc pv lim x /\ storable sc pv lim zipped (da_dialect x) (da_cols x) (da_items x) /\ can_create env (in_dir d (da_name x))) -> key_columns ts ->
  can_create env (in_dir d m) -> gr_doc g = Ok j -> fe_loads env (fe_dumps env j) = Some j -> load j = Ok g1 -> same_description g g1 ->
  exists fs' g', group_write sc env pv lim g strict zipped fs (in_dir d m) (map (fun i => (fst i, map IDict (snd i))) items) = (fs', Ok tt) /\
    from_file env load fs' (in_dir d m) = Ok g' /\ Forall2 (describes g') (gr_tables g') ts /\
    (is_valid veq loading (map (from_files sc lim expand fs' d) ts) = Ok true <-> loading = [] /\ keys_hold veq ts).
Proof.
  intros V veq sc expand env pv lim load g g1 j d m strict zipped fs items loading ts Q X G D I M C N B Ds Its P K Cm J Jl Lo Sd.
  assert (C2 : no_clash zipped m (map fst (map (fun i : pystr * list (dict V) => (fst i, map (@IDict V) (snd i))) items))) by (rewrite map_map; exact C).
  destruct (c55_round_trip V sc expand env pv lim load g g1 j d m strict zipped fs items G D I M C B X) as (fs' & g' & Dd & W & F & _); try assumption.
  - intros t It. destruct (F2_l _ _ _ _ Ds It) as (x & Ix & E & _). rewrite <- E. apply in_map_iff. exists (da_name x, da_items x). split; [reflexivity|]. apply Its. exists x. auto.
  - intros n rows Ir. apply Its in Ir. destruct Ir as (x & Ix & <- & <-). destruct (F2_r _ _ _ _ Ds Ix) as (t & It & E & E2 & E3 & E4). exists t, (da_dialect x). split; [rewrite E; exact (named_of g t N It)|].
    destruct (P x Ix) as (_ & S & Cc). split; [exact Cc|]. split; [exact E2|]. rewrite <- E4. exact S.
  - exists fs', g'. split; [exact W|]. split; [exact F|].
    assert (Sg : gr_tables g' = gr_tables g /\ gr_dialect g' = gr_dialect g).
    { unfold from_file in F. rewrite (norm_in d m D (plain_one m M)) in F. destruct (c55_write V sc env pv lim g d m strict zipped fs _ fs' G D I M C2 W) as (_ & (j' & Ej & Fj) & _).
      rewrite J in Ej. apply Ok_inj in Ej. subst j'. rewrite Fj, Jl, Lo in F. apply Ok_inj in F. subst g'. destruct Sd as (S1 & S2 & _). auto. }
    destruct Sg as [S1 S2]. split.
    + rewrite S1. revert Ds. apply F2_mono. intros t x (A & A2 & E & E'). split; [exact A|]. split; [|auto]. unfold has_dialect in *. rewrite S2. exact A2.
    + apply (group_valid veq Q sc expand X env pv lim g d m strict zipped fs (map (fun i => (fst i, map IDict (snd i))) items) fs' loading ts); try assumption.
      * intros x Ix. apply in_map_iff. exists (da_name x, da_items x). split; [reflexivity|]. apply Its. exists x. auto.
      * intros x Ix. destruct (P x Ix) as (A1 & A2 & _). auto.
Qed.
Print Assumptions c72_round_trip.
Definition gv : fgroup value := g0 None (Some (lit "d/md.json")) [tab (lit "t.csv") cols0; tab (lit "u.csv") cols0].
Definition itsv : list (pystr * list (dict value)) := [(lit "u.csv", firstn 1 items0); (lit "t.csv", items0)].
Example c72_nonvacuous : forall zipped, let w := group_write sc0 env0 py_modern 131072 gv true zipped no_files (lit "d/md.json") (idicts itsv) in
  plain_group gv /\ plain_dir (lit "d") /\ fe_isdir env0 (lit "d") = true /\ component (lit "md.json") /\ no_clash zipped (lit "md.json") (map fst (idicts itsv)) /\ NoDup (map t_url (gr_tables gv)) /\ same_description gv gv
  /\ lit "d/md.json" = in_dir (lit "d") (lit "md.json") /\ snd w = Ok tt
  /\ (forall col, Forall2 (describes gv) (gr_tables gv) [t0; u0 col] /\ (forall x, In x [t0; u0 col] -> In (da_name x, map (@IDict value) (da_items x)) (idicts itsv))
       /\ (forall x, In x [t0; u0 col] -> presentable sc0 py_modern 131072 x /\ storable sc0 py_modern 131072 zipped (da_dialect x) (da_cols x) (da_items x)))
  /\ is_valid veq0 [] (map (from_files sc0 131072 expand0 (fst w) (lit "d")) [t0; u0 "n"]) = Ok true
  /\ is_valid veq0 [] (map (from_files sc0 131072 expand0 (fst w) (lit "d")) [t0; u0 "a"]) = Err ValueError.
Proof.
  intros zipped w. split; [intros t [<-|[<-|[]]]; apply plain_one; comp|]. split; [apply dir_d; comp|]. split; [reflexivity|]. split; [comp|]. split.
  { split; [cbn; repeat constructor; cbn; intuition discriminate|]. split; [vm_compute; intuition discriminate|]. intros _ n [<-|[<-|[]]]; vm_compute; intuition discriminate. }
  split; [vm_compute; repeat constructor; cbn; intuition discriminate|]. split; [repeat split|]. split; [reflexivity|]. split; [subst w; destruct zipped; vm_compute; reflexivity|]. split; [|subst w; split; destruct zipped; vm_compute; reflexivity].
  intros col. split; [repeat constructor; right; split; reflexivity || (left; reflexivity)|]. split.
  - intros x [<-|[<-|[]]]; cbn; auto.
  - intros x [<-|[<-|[]]]; (split; [apply presentable0|apply storable1]); auto.
Qed.
Example c72_round_trip_nonvacuous : let load := fun _ : json => Ok gv in
  (forall col n rows, In (n, rows) itsv <-> exists x, In x [t0; u0 col] /\ da_name x = n /\ da_items x = rows) /\ (forall col x, In x [t0; u0 col] -> can_create env0 (in_dir (lit "d") (da_name x)))
  /\ can_create env0 (in_dir (lit "d") (lit "md.json")) /\ gr_base gv = None /\ gr_doc gv = Ok (JObj []) /\ fe_loads env0 (fe_dumps env0 (JObj [])) = Some (JObj []) /\ load (JObj []) = Ok gv.
Proof.
  cbn zeta. split; [|split; [|split; [|repeat split]]].
  - intros col n rows. split.
    + intros [E|[E|[]]]; injection E as <- <-; [exists (u0 col)|exists t0]; cbn; auto.
    + intros (x & [<-|[<-|[]]] & <- & <-); cbn; auto.
  - intros col x [<-|[<-|[]]]; (apply create_in; [left; reflexivity|comp|reflexivity]).
  - apply create_in; [left; reflexivity|comp|reflexivity].
Qed.

(** Not everything that can be written is valid.  A special number, see C60: *)
Definition t_inf : @data value := {| da_name := lit "t.csv"; da_dialect := pd; da_lang := []; da_cols := tcols [col_d]; da_pk := None; da_fks := []; da_items := [[(lit "d", POne (VDec (Dec.Inf false)))]] |}.
Theorem c71_special_refuted : let file := crlf ["d"; "INF"]%string in
  storable sc0 py_modern 131072 false pd (tcols [col_d]) (da_items t_inf) /\ writes sc0 py_modern 131072 true None t_inf file /\ keys_hold veq0 [t_inf]
  /\ is_valid veq0 [] [on_disk sc0 131072 expand0 (t_inf, file)] = Ok false.
Proof.
  cbn zeta. split; [|split; [vm_compute; reflexivity|split; [|vm_compute; reflexivity]]].
  - split; [exists 44, 34, [CR; LF]; split; [apply plain_dialect_sane|right; reflexivity]|]. split; [reflexivity|]. split; [reflexivity|]. split; [repeat split|]. split; [discriminate|].
    split; [exists 1%nat; split; [intros c [<-|[]]; reflexivity|intros c []]|]. split; [unfold distinct_headers; cbn; repeat constructor; cbn; tauto|]. split; [intros c [<-|[]]; discriminate|]. split; [|split].
    + intros kvs [<-|[]]. split; [cbn; repeat constructor; cbn; tauto|]. intros k. split.
      * intros [<-|[]]. exists (nth 0 (tcols [col_d]) (anon_col 0)). split; [left; reflexivity|split; reflexivity].
      * intros (c & [<-|[]] & _ & <-). cbn. auto.
    + intros kvs c v [<-|[]] [<-|[]] _ E. vm_compute in E. injection E as <-. eexists. split; vm_compute; reflexivity.
    + intros rows H. assert (E : rows = [[CStr (lit "INF")]]).
      { apply Forall2_nth in H. destruct H as [H1 H2]. destruct rows as [|r1 [|]]; try discriminate. destruct (H2 0%nat _ eq_refl) as (b & X & Y). cbn in X. injection X as <-. apply item_row_iff in Y. vm_compute in Y. injection Y as <-. reflexivity. }
      rewrite E. split; [intros row s [<-|[<-|[]]] [<-|[]]; vm_compute; discriminate|]. split; [intros _ _; vm_compute; intros; discriminate|discriminate].
  - assert (V : is_valid veq0 [] (map in_memory [t_inf]) = Ok true) by (vm_compute; reflexivity). apply (GroupProofs4.is_valid_iff veq0 veq0_equivalence) in V. destruct V as (_ & A & B & _).
    split; [|exact B]. intros t I. exact (proj2 (A _ (in_map in_memory _ _ I))).
Qed.
Print Assumptions c71_special_refuted.
(** A column without name, and with a title in another language than its description's only: it is written under the header _col.1, and read back. *)
Definition t_title : @data value := {| da_name := lit "t.csv"; da_dialect := pd; da_lang := lit "de"; da_cols := tcols [col_t "en"]; da_pk := None; da_fks := []; da_items := [[(lit "_col.1", vs "x")]] |}.
Theorem c71_title_refuted : writes sc0 py_modern 131072 true None t_title (crlf ["_col.1"; "x"]%string) /\ keys_hold veq0 [t_title]
  /\ is_valid veq0 [] [on_disk sc0 131072 expand0 (t_title, crlf ["_col.1"; "x"]%string)] = Ok false
  /\ map snd (io_rows (g_iter (on_disk sc0 131072 expand0 (t_title, crlf ["_col.1"; "x"]%string)) false)) = da_items t_title.
Proof.
  split; [vm_compute; reflexivity|]. split; [|split; vm_compute; reflexivity].
  assert (V : is_valid veq0 [] (map in_memory [t_title]) = Ok true) by (vm_compute; reflexivity). apply (GroupProofs4.is_valid_iff veq0 veq0_equivalence) in V. destruct V as (_ & A & B & _).
  split; [|exact B]. intros t I. exact (proj2 (A _ (in_map in_memory _ _ I))).
Qed.
Print Assumptions c71_title_refuted.
