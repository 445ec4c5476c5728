(** Property theorems C27-C32.  Vocabulary: TableSpec.v. *)
From Verif Require Import PyStr PyCsv Dsv DsvSpec DsvExamples Json NatLang Column Schema SchemaSpec Datatype Values Numeric Dates Table TableSpec TableProofs TableProofs2 TableProofs3 TableProofs4 TableProofs5 TableProofs6.
From Coq Require String. Local Notation string := String.string.

(** An example table: a (no datatype) and n (a required integer) *)
Definition sc0 : scalars value := value_scalars (fun _ => []) (fun _ => []).
Definition expand0 : pystr -> dict value -> res pystr := fun u _ => Ok u.
Definition int_t : dtype value := dt_integer (fun _ => None) (fun _ _ => Err OtherError) (lit "integer") no_range no_facets.
Definition dsc (dt : option (dtype value)) (req : option bool) (vurl : option pystr) : desc value :=
  {| de_aboutUrl := None; de_datatype := option_map Some dt; de_default := []; de_lang := lit "und"; de_null := [[]];
     de_propertyUrl := None; de_required := req; de_separator := None; de_valueUrl := vurl |}.
Definition col_a : column value := {| c_desc := desc0; c_name := Some (lit "a"); c_titles := None; c_virtual := false; c_number := Some 1%nat |}.
Definition col_nn : column value := {| c_desc := dsc (Some int_t) (Some true) None; c_name := Some (lit "n"); c_titles := Some [(None, [lit "N"])]; c_virtual := false; c_number := Some 2%nat |}.
Definition col_v : column value := {| c_desc := dsc None None (Some (lit "http://x")); c_name := Some (lit "v"); c_titles := None; c_virtual := true; c_number := Some 3%nat |}.
Definition schema_of (cols : list (column value)) : schema value := {| s_desc := desc0; s_columns := cols; s_primaryKey := None; s_foreignKeys := [] |}.
Definition tcols (cols : list (column value)) : list (tcol value) := match tcols_of (schema_of cols) [desc0; desc0] with Ok l => l | Err _ => [] end.
Definition cols0 := tcols [col_a; col_nn; col_v].
Definition pd := plain_dialect true false.
Definition vs (s : string) : pyval value := POne (VStr (lit s)).
Definition vi (z : Z) : pyval value := POne (VInt z).
Definition crlf (ls : list string) : pystr := flat_map (fun l => lit l ++ [CR; LF]) ls.
Example cols0_ok : tcols_of (schema_of [col_a; col_nn; col_v]) [desc0; desc0] = Ok cols0
  /\ regular_first cols0 /\ titles_readable cols0 /\ distinct_headers cols0 /\ expands expand0 /\ keeps_everything pd
  /\ match schema_init (schema_of [col_a; col_nn; col_v]) with Ok _ => true | Err _ => false end = true.
Proof.
  split; [reflexivity|]. split; [|split; [|split; [|split; [|split]]]].
  - exists 2%nat. split; [intros c [<-|[<-|[]]]; reflexivity|intros c [<-|[]]; reflexivity].
  - intros c [<-|[<-|[<-|[]]]]; eexists; reflexivity.
  - unfold distinct_headers. cbn. repeat constructor; cbn; intuition discriminate.
  - split; [intros u d; eexists; reflexivity|reflexivity].
  - repeat split.
  - vm_compute. reflexivity.
Qed.

(** * C27: writing and reading back *)
Theorem c27_write_read : forall V (sc : scalars V) expand pv lim d dl q term lang strict log (cols : list (tcol V)) before items,
  sane_dialect d dl q term -> d_doubleQuote d = true -> d_skipInitialSpace d = false ->
  quote_crlf pv = true \/ term = [CR; LF] -> keeps_everything d ->
  regular_first cols -> distinct_headers cols -> (forall c, In c cols -> tc_virtual c = true -> tc_required c = false) ->
  expands expand ->
  (forall kvs, In kvs items -> complete_item cols kvs) ->
  (forall kvs c v, In kvs items -> In c cols -> tc_virtual c = false -> dget str_eqb kvs (tc_header c) = Some v -> survives sc c v) ->
  (forall rows, Forall2 (row_of sc cols) (map IDict items) rows ->
     cells_within lim (texts (header_rows d cols ++ rows)) /\ bom_safe d (header_rows d cols ++ rows)) ->
  exists t, table_write sc pv lim d strict cols before (map IDict items) = (Some t, Ok (length items)) /\
    let o := iterdicts sc expand lim d lang true log cols t in
    io_end o = None /\ io_msgs o = [] /\
    Forall2 (fun y kvs => (forall c, In c cols -> tc_virtual c = false -> dget str_eqb (snd y) (tc_header c) = dget str_eqb kvs (tc_header c))
                          /\ ((forall c, In c cols -> tc_virtual c = false) -> same_mapping (snd y) kvs /\ map fst (snd y) = map tc_header cols))
      (io_rows o) items.
Proof. exact @write_read. Qed.
Print Assumptions c27_write_read.
Definition items0 : list (dict value) := [[(lit "n", vi 1); (lit "a", vs "x,y")]; [(lit "a", PNone); (lit "n", vi (-20))]].
Example c27_nonvacuous :
  sane_dialect pd 44 34 [CR; LF] /\ (forall c, In c cols0 -> tc_virtual c = true -> tc_required c = false)
  /\ (forall kvs, In kvs items0 -> complete_item cols0 kvs)
  /\ (forall kvs c v, In kvs items0 -> In c cols0 -> tc_virtual c = false -> dget str_eqb kvs (tc_header c) = Some v -> survives sc0 c v)
  /\ (forall rows, Forall2 (row_of sc0 cols0) (map IDict items0) rows ->
       cells_within 131072 (texts (header_rows pd cols0 ++ rows)) /\ bom_safe pd (header_rows pd cols0 ++ rows))
  /\ table_write sc0 py_modern 131072 pd true cols0 None (map IDict items0) = (Some (crlf ["a,n"; """x,y"",1"; ",-20"]%string), Ok 2%nat)
  /\ map snd (io_rows (iterdicts sc0 expand0 131072 pd [] true false cols0 (crlf ["a,n"; """x,y"",1"; ",-20"]%string)))
     = [[(lit "a", vs "x,y"); (lit "n", vi 1); (lit "v", vs "http://x")]; [(lit "a", PNone); (lit "n", vi (-20)); (lit "v", vs "http://x")]].
Proof.
  split; [apply plain_dialect_sane|]. split; [intros c [<-|[<-|[<-|[]]]]; reflexivity || discriminate|].
  split; [|split; [|split; [|split; vm_compute; reflexivity]]].
  - intros kvs [<-|[<-|[]]]; (split; [cbn; repeat constructor; cbn; intuition discriminate|]); intros k; (split;
      [intros [<-|[<-|[]]]; [..]; first [exists (nth 0 cols0 (anon_col 0)); split; [left; reflexivity|split; reflexivity]
                                        |exists (nth 1 cols0 (anon_col 0)); split; [right; left; reflexivity|split; reflexivity]]
      |intros (c & [<-|[<-|[<-|[]]]] & Hv & <-); try discriminate; cbn; auto]).
  - intros kvs c v [<-|[<-|[]]] [<-|[<-|[<-|[]]]] Hv E; try discriminate; vm_compute in E; injection E as <-; eexists; split; vm_compute; reflexivity.
  - intros rows H.
    assert (E : rows = [[CStr (lit "x,y"); CStr (lit "1")]; [CStr []; CStr (lit "-20")]]).
    { apply Forall2_nth in H. destruct H as [H1 H2]. destruct rows as [|r1 [|r2 [|]]]; try discriminate.
      destruct (H2 0%nat _ eq_refl) as (b & X & Y). cbn in X. injection X as <-. apply item_row_iff in Y. vm_compute in Y. injection Y as <-.
      destruct (H2 1%nat _ eq_refl) as (b & X & Y). cbn in X. injection X as <-. apply item_row_iff in Y. vm_compute in Y. injection Y as <-. reflexivity. }
    rewrite E. split.
    + intros row s [<-|[<-|[<-|[]]]] [<-|[<-|[]]]; vm_compute; discriminate.
    + intros _ _. vm_compute. intros. discriminate.
Qed.

(** * C28: errors are isolated to rows *)
Theorem c28_isolated : forall V (sc : scalars V) expand lim dl lang (cols : list (tcol V)) file rows endr hdr data,
  reader_with_line_number lim (Some dl) kw0 file = Ok (rows, endr) -> header_and_data dl cols rows hdr data ->
  hdr <> [] -> regular_first cols -> titles_readable cols -> (forall u d, exists s, expand u d = Ok s) ->
  exists hc, matched cols hdr hc /\
  (each_once hc -> required_present cols hc -> (forall lr, In lr data -> only_value_errors sc hc (snd lr)) ->
   let o := iterdicts sc expand lim dl lang true true cols file in
   let o' := iterdicts sc expand lim dl lang true false cols file in
   (* with a log *)
   io_end o = endr
   /\ (exists good, Selected (fun lr => row_good sc hc (snd lr)) data good
       /\ Forall2 (fun lr y => fst y = fst lr /\ row_reads sc cols hc (snd lr) (snd y)) good (io_rows o))
   /\ (exists mss, Forall2 (fun lr ms => row_messages sc hc (fst lr) (snd lr) ms) data mss /\ io_msgs o = concat mss)
   (* without *)
   /\ io_msgs o' = []
   /\ ((forall lr, In lr data -> row_good sc hc (snd lr)) -> io_end o' = endr /\ io_rows o' = io_rows o)
   /\ (forall pre bad post, data = pre ++ bad :: post -> (forall lr, In lr pre -> row_good sc hc (snd lr)) ->
        ~ row_good sc hc (snd bad) -> io_end o' = Some ValueError
        /\ Forall2 (fun lr y => fst y = fst lr /\ row_reads sc cols hc (snd lr) (snd y)) pre (io_rows o')
        /\ exists more, io_rows o = io_rows o' ++ more)).
Proof. exact @log_theorem. Qed.
Print Assumptions c28_isolated.
Theorem c28_without_bad_rows : forall V (sc : scalars V) expand lim dl lang (cols : list (tcol V)) file file' rows rows' endr endr' hdr data data',
  reader_with_line_number lim (Some dl) kw0 file = Ok (rows, endr) -> header_and_data dl cols rows hdr data ->
  reader_with_line_number lim (Some dl) kw0 file' = Ok (rows', endr') -> header_and_data dl cols rows' hdr data' ->
  hdr <> [] -> regular_first cols -> titles_readable cols -> (forall u d, exists s, expand u d = Ok s) ->
  exists hc, matched cols hdr hc /\
  (each_once hc -> required_present cols hc -> (forall lr, In lr data -> only_value_errors sc hc (snd lr)) ->
   forall good, Selected (fun lr => row_good sc hc (snd lr)) data good -> map snd data' = map snd good ->
   map snd (io_rows (iterdicts sc expand lim dl lang true true cols file)) =
   map snd (io_rows (iterdicts sc expand lim dl lang true true cols file'))).
Proof. exact @without_bad_rows. Qed.
Print Assumptions c28_without_bad_rows.
Definition file_bad := crlf ["n,a"; "1,x"; "z,y"; "2,w"; ","; "3"]%string.
Definition hc0 : list (pystr * option (tcol value)) := [(lit "n", nth_error cols0 1); (lit "a", nth_error cols0 0)].
Example c28_nonvacuous :
  iterdicts sc0 expand0 131072 pd [] true true cols0 file_bad =
   {| io_rows := [(2%nat, [(lit "n", vi 1); (lit "a", vs "x"); (lit "v", vs "http://x")]); (4%nat, [(lit "n", vi 2); (lit "a", vs "w"); (lit "v", vs "http://x")]);
                  (6%nat, [(lit "n", vi 3); (lit "a", PNone); (lit "v", vs "http://x")])];
      io_msgs := [BadCell 3 1 (lit "n"); BadCell 5 1 (lit "n")]; io_warns := []; io_end := None |}
  /\ io_rows (iterdicts sc0 expand0 131072 pd [] true false cols0 file_bad) = [(2%nat, [(lit "n", vi 1); (lit "a", vs "x"); (lit "v", vs "http://x")])]
  /\ io_end (iterdicts sc0 expand0 131072 pd [] true false cols0 file_bad) = Some ValueError
  /\ header_cols true cols0 [lit "n"; lit "a"] = Ok hc0
  /\ each_once hc0 /\ required_present cols0 hc0 /\ only_value_errors sc0 hc0 [lit "z"; lit "y"] /\ ~ row_good sc0 hc0 [lit "z"; lit "y"].
Proof.
  split; [vm_compute; reflexivity|]. split; [vm_compute; reflexivity|]. split; [vm_compute; reflexivity|]. split; [reflexivity|].
  split; [|split; [|split]].
  - split; [cbn; repeat constructor; cbn; intuition discriminate|].
    intros [|[|i]] [|[|j]] k k' c c' H1 H2 E; cbn in H1, H2; try reflexivity; try (destruct i; discriminate); try (destruct j; discriminate);
      injection H1 as <- <-; injection H2 as <- <-; discriminate.
  - intros c [<-|[<-|[<-|[]]]] Hq; try discriminate. do 2 eexists. split; [left; reflexivity|reflexivity].
  - intros [|[|j]] k c v e H1 H2 H3; cbn in H1, H2; [| |destruct j; discriminate]; injection H1 as <- <-; injection H2 as <-; vm_compute in H3; congruence.
  - intros H. destruct (H 0%nat) as [H0 _]. apply H0. do 3 eexists. split; [reflexivity|]. split; [reflexivity|]. vm_compute. reflexivity.
Qed.
(** a log does not help if a cell raises something else: 'INF' in an integer column *)
Theorem c28_overflow_refuted : exists file, io_end (iterdicts sc0 expand0 131072 pd [] true true cols0 file) = Some OverflowError
  /\ io_rows (iterdicts sc0 expand0 131072 pd [] true true cols0 file) = [].
Proof. exists (crlf ["n,a"; "INF,x"; "1,y"]%string). split; vm_compute; reflexivity. Qed.
Print Assumptions c28_overflow_refuted.
(** surplus cells are dropped without message *)
Theorem c28_surplus_cells_refuted : exists file, io_msgs (iterdicts sc0 expand0 131072 pd [] true true cols0 file) = []
  /\ io_rows (iterdicts sc0 expand0 131072 pd [] true true cols0 file) = [(2%nat, [(lit "n", vi 1); (lit "a", vs "x"); (lit "v", vs "http://x")])]
  /\ contains (lit "surplus") file = true.
Proof. exists (crlf ["n,a"; "1,x,surplus"]%string). repeat split; vm_compute; reflexivity. Qed.
Print Assumptions c28_surplus_cells_refuted.

(** * C29: the order of columns in the file *)
Theorem c29_order : forall V (sc : scalars V) expand lim dl lang (cols : list (tcol V)) file file' l l' hdr' data data' endr log,
  d_header dl = true -> let hdr := map tc_header (filter (fun c => negb (tc_virtual c)) cols) in hdr <> [] ->
  reader_with_line_number lim (Some dl) kw0 file = Ok ((l, hdr) :: data, endr) ->
  reader_with_line_number lim (Some dl) kw0 file' = Ok ((l', hdr') :: data', endr) ->
  Permutation hdr hdr' -> Forall2 (permuted hdr hdr') data data' ->
  regular_first cols -> titles_readable cols -> distinct_headers cols -> expands expand ->
  (forall lr c v e, In lr data -> In c cols -> In v (snd lr) -> fst (col_read sc true (tc_st c) v) = Err e -> e = ValueError) ->
  let o := iterdicts sc expand lim dl lang true log cols file in
  let o' := iterdicts sc expand lim dl lang true log cols file' in
  io_end o = io_end o' /\ Forall2 (fun y y' => fst y = fst y' /\ same_mapping (snd y) (snd y')) (io_rows o) (io_rows o').
Proof. exact @order_theorem. Qed.
Print Assumptions c29_order.
Example c29_nonvacuous : exists data data',
  reader_with_line_number 131072 (Some pd) kw0 (crlf ["a,n"; "x,1"; "y,zz"]%string) = Ok ((1%nat, [lit "a"; lit "n"]) :: data, None)
  /\ reader_with_line_number 131072 (Some pd) kw0 (crlf ["n,a"; "1,x"; "zz,y"]%string) = Ok ((1%nat, [lit "n"; lit "a"]) :: data', None)
  /\ Forall2 (permuted [lit "a"; lit "n"] [lit "n"; lit "a"]) data data'
  /\ map tc_header (filter (fun c => negb (tc_virtual c)) cols0) = [lit "a"; lit "n"]
  /\ (forall lr c v e, In lr data -> In c cols0 -> In v (snd lr) -> fst (col_read sc0 true (tc_st c) v) = Err e -> e = ValueError).
Proof.
  exists [(2%nat, [lit "x"; lit "1"]); (3%nat, [lit "y"; lit "zz"])], [(2%nat, [lit "1"; lit "x"]); (3%nat, [lit "zz"; lit "y"])].
  split; [vm_compute; reflexivity|]. split; [vm_compute; reflexivity|]. split; [|split; [reflexivity|]].
  - repeat constructor; apply perm_swap.
  - intros lr c v e [<-|[<-|[]]] [<-|[<-|[<-|[]]]] [<-|[<-|[]]] H; vm_compute in H; congruence.
Qed.

(** * C30: all columns are in the dict; required columns *)
Theorem c30_all_keys : forall V (sc : scalars V) expand lim dl lang strict log (cols : list (tcol V)) file line d c,
  In (line, d) (io_rows (iterdicts sc expand lim dl lang strict log cols file)) ->
  In c cols -> tc_virtual c = false -> has_key d (tc_header c).
Proof. exact @all_keys. Qed.
Print Assumptions c30_all_keys.
Theorem c30_required_missing : forall V (sc : scalars V) expand lim dl lang log (cols : list (tcol V)) file rows endr hdr data c,
  reader_with_line_number lim (Some dl) kw0 file = Ok (rows, endr) -> header_and_data dl cols rows hdr data ->
  regular_first cols -> titles_readable cols -> distinct_headers cols ->
  In c cols -> tc_required c = true -> (forall h, In h hdr -> ~ refers c h) ->
  let o := iterdicts sc expand lim dl lang true log cols file in
  io_rows o = [] /\ io_end o = Some ValueError.
Proof. exact @missing_required_theorem. Qed.
Print Assumptions c30_required_missing.
Theorem c30_required_not_none : forall V (sc : scalars V) expand lim dl lang log (cols : list (tcol V)) file line d c s outer,
  tcols_of s outer = Ok cols -> regular_first cols -> titles_readable cols -> distinct_headers cols ->
  In (line, d) (io_rows (iterdicts sc expand lim dl lang true log cols file)) ->
  In c cols -> tc_required c = true -> dget str_eqb d (tc_header c) <> Some PNone.
Proof. exact @required_not_none. Qed.
Print Assumptions c30_required_not_none.
Example c30_nonvacuous :
  io_end (iterdicts sc0 expand0 131072 pd [] true true cols0 (crlf ["a,b"; "x,1"]%string)) = Some ValueError
  /\ map snd (io_rows (iterdicts sc0 expand0 131072 pd [] true true cols0 (crlf ["N"; "5"]%string)))
     = [[(lit "n", vi 5); (lit "a", PNone); (lit "v", vs "http://x")]]
  /\ (exists c, In c cols0 /\ tc_required c = true /\ refers c (lit "N") /\ ~ refers c (lit "b")).
Proof.
  split; [vm_compute; reflexivity|]. split; [vm_compute; reflexivity|].
  exists (nth 1 cols0 (anon_col 0)). split; [right; left; reflexivity|]. split; [reflexivity|].
  split; [right; left; reflexivity|]. unfold refers. intros [H|[H|H]]; vm_compute in H; discriminate.
Qed.
(** [required] set on the schema or table holds for the cells of a column but not for missing columns or cells *)
Definition col_b : column value := {| c_desc := desc0; c_name := Some (lit "b"); c_titles := None; c_virtual := false; c_number := Some 2%nat |}.
Definition cols_inherited := match tcols_of {| s_desc := dsc None (Some true) None; s_columns := [col_a; col_b]; s_primaryKey := None; s_foreignKeys := [] |} [desc0; desc0] with Ok l => l | Err _ => [] end.
Theorem c30_inherited_required_refuted : (forall c, In c cols_inherited -> st_required (tc_st c) = true)
  /\ map snd (io_rows (iterdicts sc0 expand0 131072 pd [] true false cols_inherited (crlf ["a"; "x"]%string))) = [[(lit "a", vs "x"); (lit "b", PNone)]]
  /\ map snd (io_rows (iterdicts sc0 expand0 131072 pd [] true false cols_inherited (crlf ["a,b"; "x"]%string))) = [[(lit "a", vs "x"); (lit "b", PNone)]]
  /\ io_end (iterdicts sc0 expand0 131072 pd [] true false cols_inherited (crlf ["a,b"; "x,"]%string)) = Some ValueError.
Proof. split; [intros c [<-|[<-|[]]]; reflexivity|]. repeat split; vm_compute; reflexivity. Qed.
Print Assumptions c30_inherited_required_refuted.
(** a required virtual column makes every file with header unreadable *)
Definition col_vr : column value := {| c_desc := dsc None (Some true) (Some (lit "http://x")); c_name := Some (lit "v"); c_titles := None; c_virtual := true; c_number := Some 2%nat |}.
Theorem c30_virtual_required_refuted : let cols := tcols [col_a; col_vr] in
  io_end (iterdicts sc0 expand0 131072 pd [] true false cols (crlf ["a"; "x"]%string)) = Some ValueError.
Proof. vm_compute. reflexivity. Qed.
Print Assumptions c30_virtual_required_refuted.

(** * C31: Table.write *)
Theorem c31_write : forall V (sc : scalars V) pv lim d strict (cols : list (tcol V)) before items after n,
  table_write sc pv lim d strict cols before items = (after, Ok n) <->
  n = length items /\ (strict = true -> forall it, In it items -> ~ unknown_field cols it) /\
  exists rows t, Forall2 (row_of sc cols) items rows
    /\ write_file pv lim (Some d) kw0
         ((if d_header d then [map (fun c => CStr (tc_header c)) (filter (fun c => negb (tc_virtual c)) cols)] else []) ++ rows) = Ok t
    /\ after = Some t.
Proof. exact @write_ok. Qed.
Print Assumptions c31_write.
Theorem c31_strict : forall V (sc : scalars V) pv lim d (cols : list (tcol V)) before items after n,
  table_write sc pv lim d false cols before items = (after, Ok n) ->
  ((exists it, In it items /\ unknown_field cols it) <-> snd (table_write sc pv lim d true cols before items) = Err ValueError)
  /\ ((forall it, In it items -> ~ unknown_field cols it) -> table_write sc pv lim d true cols before items = (after, Ok n)).
Proof. exact @write_strict_iff. Qed.
Print Assumptions c31_strict.
(** when it is raised, the file has the items before, and nothing else *)
Theorem c31_strict_overwrites : forall V (sc : scalars V) pv lim d (cols : list (tcol V)) before pre it post rows t,
  (forall x, In x pre -> ~ unknown_field cols x) -> unknown_field cols it ->
  Forall2 (row_of sc cols) pre rows -> write_file pv lim (Some d) kw0 (header_rows d cols ++ rows) = Ok t ->
  table_write sc pv lim d true cols before (pre ++ it :: post) = (Some t, Err ValueError).
Proof. exact @write_strict_unknown. Qed.
Print Assumptions c31_strict_overwrites.
Example c31_nonvacuous :
  let good := IDict [(lit "a", vs "x"); (lit "n", vi 1)] in let bad := IDict [(lit "a", vs "x"); (lit "n", vi 1); (lit "v", vs "y")] in
  table_write sc0 py_modern 131072 pd false cols0 (Some (lit "old")) [good; bad; IList [PNone; vi 2; vi 3]]
    = (Some (crlf ["a,n"; "x,1"; "x,1"; ",2"]%string), Ok 3%nat)
  /\ table_write sc0 py_modern 131072 pd true cols0 (Some (lit "old")) [good; bad; good] = (Some (crlf ["a,n"; "x,1"]%string), Err ValueError)
  /\ unknown_field cols0 bad /\ ~ unknown_field cols0 good.
Proof.
  cbn zeta. split; [vm_compute; reflexivity|]. split; [vm_compute; reflexivity|]. split.
  - exists (lit "v"), (vs "y"). split; [right; right; left; reflexivity|]. intros c [<-|[<-|[<-|[]]]] Hv; [discriminate..|]. discriminate.
  - intros (k & v & Hin & H). destruct Hin as [E|[E|[]]]; injection E as <- <-.
    + apply (H (nth 0 cols0 (anon_col 0))); [left; reflexivity|reflexivity|reflexivity].
    + apply (H (nth 1 cols0 (anon_col 0))); [right; left; reflexivity|reflexivity|reflexivity].
Qed.

(** * C32: primary keys *)
(** the readable rows all have keys, if the key columns are columns *)
Theorem c32_keys : forall V (sc : scalars V) expand lim dl lang strict log (cols : list (tcol V)) file pk,
  (forall k, In k pk -> exists c, In c cols /\ tc_virtual c = false /\ tc_header c = k) ->
  exists keys, Forall2 (fun lr key => has_keys pk (snd lr) key) (io_rows (iterdicts sc expand lim dl lang strict log cols file)) keys.
Proof. exact @pk_keys_exist. Qed.
Print Assumptions c32_keys.
Theorem c32_log : forall V (veq : V -> V -> bool), equivalence veq -> forall k ks (o : iterout) keys,
  Forall2 (fun lr key => has_keys (k :: ks) (snd lr) key) (io_rows o) keys -> (forall key, In key keys -> no_lists key) ->
  io_end o = None ->
  exists dup, Selected (repeated veq keys) (seq 0 (length keys)) dup
    /\ check_primary_key veq true (Some (k :: ks)) o
       = (map (fun i => fst (nth i (io_rows o) (0%nat, []))) dup, Ok (match dup with [] => true | _ => false end)).
Proof. exact @primary_key_log. Qed.
Print Assumptions c32_log.
Theorem c32_nolog : forall V (veq : V -> V -> bool), equivalence veq -> forall k ks (o : iterout) keys,
  Forall2 (fun lr key => has_keys (k :: ks) (snd lr) key) (io_rows o) keys -> (forall key, In key keys -> no_lists key) ->
  fst (check_primary_key veq false (Some (k :: ks)) o) = []
  /\ ((exists i, repeated veq keys i) -> snd (check_primary_key veq false (Some (k :: ks)) o) = Err ValueError)
  /\ ((forall i, ~ repeated veq keys i) ->
      snd (check_primary_key veq false (Some (k :: ks)) o) = match io_end o with Some e => Err e | None => Ok true end).
Proof. exact @primary_key_nolog. Qed.
Print Assumptions c32_nolog.
(** a list-valued key column: the check itself fails *)
Theorem c32_list_key_refuted : forall (veq : value -> value -> bool) log l,
  snd (check_primary_key veq log (Some [lit "a"]) {| io_rows := [(2%nat, [(lit "a", PList l)])]; io_msgs := []; io_warns := []; io_end := None |}) = Err TypeError.
Proof. intros veq log l. reflexivity. Qed.
Print Assumptions c32_list_key_refuted.
Definition nat_rows : list (nat * dict nat) :=
  [(2%nat, [(lit "a", POne 1%nat); (lit "b", PNone)]); (3%nat, [(lit "a", POne 1%nat); (lit "b", POne 2%nat)]); (4%nat, [(lit "a", POne 1%nat); (lit "b", PNone)])].
Example c32_nonvacuous : equivalence Nat.eqb
  /\ Forall2 (fun lr key => has_keys [lit "a"; lit "b"] (snd lr) key) nat_rows
       [[POne 1%nat; PNone]; [POne 1%nat; POne 2%nat]; [POne 1%nat; PNone]]
  /\ check_primary_key Nat.eqb true (Some [lit "a"; lit "b"]) {| io_rows := nat_rows; io_msgs := []; io_warns := []; io_end := None |} = ([4%nat], Ok false)
  /\ snd (check_primary_key Nat.eqb false (Some [lit "a"; lit "b"]) {| io_rows := nat_rows; io_msgs := []; io_warns := []; io_end := None |}) = Err ValueError.
Proof.
  split; [|split; [|split; vm_compute; reflexivity]].
  - split; [apply Nat.eqb_refl|]. split; [intros a b H; apply Nat.eqb_eq in H; subst; apply Nat.eqb_refl|].
    intros a b c H1 H2. apply Nat.eqb_eq in H1, H2. subst. apply Nat.eqb_refl.
  - repeat constructor.
Qed.
