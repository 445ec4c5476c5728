(** C65: a table group converted to a database by csvw2sqlite is read back from it. *)
From Coq Require Import Permutation.
From Verif Require Import Dec PyStr Json Dsv DsvProofs4 Datatype Values Numeric Dialects Column Schema Table Zip Files Descr Load Group Sql Db DbSql DbSqlSpec DbSpec DbProofs Sqlite DbWrite DbWriteSpec Cli
  FrictionlessProofs2 ToSqlite ToSqliteSpec ToSqliteProofs1 ToSqliteProofs2 ToSqliteProofs5 ToSqliteProofs7 ToSqliteProofs8 QuietProofs JsonTextProofs TableSpec Props_DbRound Props_Rollback Props_Load.

Section Statements.
Variables (W : world value) (sc : scalars value) (expand : pystr -> dict value -> res pystr) (lim : N) (env : fenv) (P : py_fns) (St : store_fns) (bound_str : value -> pystr).
Notation convert := (csvw2sqlite W sc expand lim env P St bound_str).
Notation back := (read_back W env P St bound_str).
Notation tr := name_translator.

(** What a successful run has read: the description at the url, and the rows of all tables *)
Definition has_read (fs : files) (url : pystr) (ks : list ktable) (tables : list tablespec) (items : list (pystr * list (dict value))) : Prop :=
  exists o g, group_object W env fs url = Ok o /\ keyed_tables W o = Ok ks /\ load_group W (load_dtype W) false o = Ok g /\
    db_tables bound_str o ks = Ok tables /\ group_read sc expand env lim (with_fname g (norm url)) fs = Ok items.

Lemma prepared fs url tables items : prepare W sc expand lim env bound_str fs url = Ok (tables, items) ->
  exists o ks g, group_object W env fs url = Ok o /\ keyed_tables W o = Ok ks /\ load_group W (load_dtype W) false o = Ok g /\
    db_tables bound_str o ks = Ok tables /\ group_read sc expand env lim (with_fname g (norm url)) fs = Ok items.
Proof.
  intros Ep. unfold prepare in Ep.
  apply bind_inv in Ep. destruct Ep as (o & Ho & Ep). apply bind_inv in Ep. destruct Ep as (ks & Hk & Ep). apply bind_inv in Ep. destruct Ep as (g & Hg & Ep). apply bind_inv in Ep. destruct Ep as (tables' & Ht & Ep).
  apply bind_inv in Ep. destruct Ep as (items' & Hi & Ep). destruct (existsb _ items'); [discriminate Ep|]. apply Ok_inj in Ep. injection Ep as -> ->. exists o, ks, g. auto.
Qed.
Theorem c65_round_trip fs url file st D :
  (forall l, Permutation (scan St l) l) -> (forall l, Permutation (group_scan St l) l) -> types_fit W -> (forall s, s_str sc s = VStr s) ->
  convert fs url file = (st, Some D, Ok tt) ->
  exists ks tables items, has_read fs url ks tables items /\
    (names_fit ks -> (forall s c, In s tables -> In c (ts_cols s) -> bounds_clean c) ->
     (forall k rows, In k ks -> In (url_of k, rows) items -> rows_fit P k rows) ->
     map fst items = map url_of ks /\
     exists out, back fs url D = Ok out /\
       forall k rows, In k ks -> In (url_of k, rows) items ->
       exists rows', Permutation rows' rows /\ Forall2 (row_kept k) rows' (rows_in out (url_of k))).
Proof.
  intros Hs Hgs Tf Ss H. unfold csvw2sqlite in H. destruct (prepare _ _ _ _ _ _ fs url) as [[tables items]|e] eqn:Ep; [|discriminate H].
  apply prepared in Ep. destruct Ep as (o & ks & g & Ho & Hk & Hg & Ht & Hi).
  exists ks, tables, items. split; [exists o, g; auto|]. intros Nf Bc Rf.
  destruct (group_dtables W bound_str o ks tables Hk Ht) as (ds & Ft & Sc). pose proof (group_items W sc expand lim env o ks g fs url items Hk Hg Hi Nf) as Its.
  split; [apply (item_names sc ks items Its)|].
  destruct (converted W sc P St ks ds tables items Tf Ss Ft Sc Its Nf Bc Rf true file st D Hs Hgs H) as (out & Ro & X). exists out. split; [|exact X].
  unfold read_back. rewrite Ho. cbn [bind]. rewrite Hk. cbn [bind]. rewrite Hg. cbn [bind]. rewrite Ht. cbn [bind]. rewrite (read_names W o ks g Hk Hg (nf_tables _ Nf)). exact Ro.
Qed.

(** If the database returns rows in the order in which they were inserted, rows and listed keys are in order. *)
Theorem c65_order fs url file st D :
  (forall l, scan St l = l) -> (forall l, group_scan St l = l) -> types_fit W -> (forall s, s_str sc s = VStr s) ->
  convert fs url file = (st, Some D, Ok tt) ->
  exists ks tables items, has_read fs url ks tables items /\
    (names_fit ks -> (forall s c, In s tables -> In c (ts_cols s) -> bounds_clean c) ->
     (forall k rows, In k ks -> In (url_of k, rows) items -> rows_fit P k rows) ->
     map fst items = map url_of ks /\
     exists out, back fs url D = Ok out /\
       forall k rows, In k ks -> In (url_of k, rows) items ->
       Forall2 (fun r o => row_kept k r o /\ forall h, is_list_key k h -> dget str_eqb o h = Some (PList (map (fun t => Some (VStr t)) (listed r h)))) rows (rows_in out (url_of k))).
Proof.
  intros Hs Hgs Tf Ss H. unfold csvw2sqlite in H. destruct (prepare _ _ _ _ _ _ fs url) as [[tables items]|e] eqn:Ep; [|discriminate H].
  apply prepared in Ep. destruct Ep as (o & ks & g & Ho & Hk & Hg & Ht & Hi).
  exists ks, tables, items. split; [exists o, g; auto|]. intros Nf Bc Rf.
  destruct (group_dtables W bound_str o ks tables Hk Ht) as (ds & Ft & Sc). pose proof (group_items W sc expand lim env o ks g fs url items Hk Hg Hi Nf) as Its.
  split; [apply (item_names sc ks items Its)|].
  destruct (converted_order W sc P St ks ds tables items Tf Ss Ft Sc Its Nf Bc Rf true file st D Hs Hgs H) as (out & Ro & X). exists out. split; [|exact X].
  unfold read_back. rewrite Ho. cbn [bind]. rewrite Hk. cbn [bind]. rewrite Hg. cbn [bind]. rewrite Ht. cbn [bind]. rewrite (read_names W o ks g Hk Hg (nf_tables _ Nf)). exact Ro.
Qed.

(** When it fails, an existing file is untouched if the description or the tables cannot be read; else it is gone, and there is a database without rows. *)
Theorem c65_failures fs url file st final e :
  convert fs url file = (st, final, Err e) ->
  (final = file /\ st = [] /\ prepare W sc expand lim env bound_str fs url = Err e) \/
  (exists tables items, prepare W sc expand lim env bound_str fs url = Ok (tables, items) /\ exists D, final = Some D /\ row_free D).
Proof.
  intros H. unfold csvw2sqlite in H. destruct (prepare _ _ _ _ _ _ fs url) as [[tables items]|e'] eqn:Ep.
  - right. exists tables, items. split; [reflexivity|]. destruct (c43_failed _ _ _ _ _ _ _ _ _ _ _ H) as [(X & _)|X]; [discriminate X|exact X].
  - left. injection H as <- <- <-. repeat split.
Qed.
End Statements.
Print Assumptions c65_round_trip.
Print Assumptions c65_order.
Print Assumptions c65_failures.

(** Rows are in step if the names in the first line of the file are those of the columns in the order of the description, or if no line has more cells than the first one
    after it (cells beyond the names in the first line do not count). *)
Theorem c65_steps sc expand lim dl lang (cols : list col) file hl hdr lines rows :
  reader_with_line_number lim (Some dl) kw0 file = Ok ((hl, hdr) :: lines, None) -> d_header dl = true ->
  regular_first cols -> NoDup (map tc_header cols) -> NoDup hdr -> hdr <> [] -> (forall h, In h hdr -> exists c, In c cols /\ tc_virtual c = false /\ tc_header c = h) ->
  (hdr = map tc_header (filter (fun c => negb (tc_virtual c)) cols) \/
   (forall l0 first rest l line, lines = (l0, first) :: rest -> In (l, line) rest -> Nat.min (length line) (length hdr) <= Nat.min (length first) (length hdr))%nat) ->
  let out := iterdicts sc expand lim dl lang true false cols file in io_end out = None -> rows = map snd (io_rows out) ->
  forall r0 rest r, rows = r0 :: rest -> In r rest -> in_step (map fst r0) r.
Proof.
  intros Rd Hh Reg Nh Nd Ne Sub Hor out He Er r0 rest r E0 I. subst out. unfold iterdicts in He, Er. rewrite Rd, Hh in He, Er. unfold iter_data in He, Er.
  destruct (header_cols true cols hdr) as [hc|] eqn:Ehc; [|discriminate He]. destruct (missing_required cols hc); [discriminate He|]. cbn [io_end io_rows] in He, Er.
  assert (Sub' : forall h, In h hdr -> In h (colnames cols)). { intros h J. destruct (Sub h J) as (c & Ic & Ev & <-). unfold colnames, regular. apply in_map, filter_In. rewrite Ev. auto. }
  assert (Ek := header_keys cols Reg hdr hc Sub' Ehc).
  assert (Vn : forall k, In k (map fst (virtualcols cols)) -> exists c, In c cols /\ tc_virtual c = true /\ tc_header c = k).
  { intros k J. apply in_map_iff in J. destruct J as ([k' u] & <- & J). unfold virtualcols in J. apply in_flat_map in J. destruct J as (c & Ic & J). destruct (tc_virtual c) eqn:Ev; [|destruct J]. destruct (de_valueUrl _); [|destruct J]. destruct J as [J|[]]. injection J as <- _. exists c. auto. }
  assert (Disj : forall c c', In c cols -> In c' cols -> tc_header c = tc_header c' -> c = c').
  { clear -Nh. induction cols as [|x l IH]; intros c c' I I' E; [destruct I|]. inversion Nh; subst. destruct I as [<-|I], I' as [<-|I']; [reflexivity| | |apply IH; assumption]; exfalso; apply H1; [rewrite E|rewrite <- E]; apply in_map; assumption. }
  assert (Nr : ~ exists c c', In c cols /\ In c' cols /\ tc_virtual c = true /\ tc_virtual c' = false /\ tc_header c = tc_header c'). { intros (c & c' & I1 & I2 & V1 & V2 & E). rewrite (Disj _ _ I1 I2 E) in V1. congruence. }
  assert (F : fits cols (map (@key_of value) hc)).
  { rewrite Ek. split; [exact Nd|]. split; [|split].
    - unfold colnames, regular. clear -Nh. induction cols as [|x l IH]; [constructor|]. inversion Nh; subst. cbn [filter]. destruct (negb (tc_virtual x)); [|apply IH; assumption]. cbn [map]. constructor; [|apply IH; assumption]. intros J. apply H1. apply in_map_iff in J. destruct J as (c & E & J). apply filter_In in J. rewrite <- E. apply in_map, J.
    - unfold virtualcols. clear -Nh. induction cols as [|x l IH]; [constructor|]. inversion Nh; subst. cbn [flat_map]. destruct (tc_virtual x); [|apply IH; assumption]. destruct (de_valueUrl _); [|apply IH; assumption]. cbn [app map fst]. constructor; [|apply IH; assumption].
      intros J. apply H1. apply in_map_iff in J. destruct J as ([k u] & E & J). cbn [fst] in E. subst k. apply in_flat_map in J. destruct J as (c & Ic & J). destruct (tc_virtual c); [|destruct J]. destruct (de_valueUrl (c_desc (tc_col c))); [|destruct J]. destruct J as [J|[]]. injection J as E _. rewrite <- E. apply in_map, Ic.
    - intros k J. destruct (Vn k J) as (c & Ic & Ev & Ec). split; intros K.
      + destruct (Sub k K) as (c' & Ic' & Ev' & Ec'). apply Nr. exists c, c'. repeat split; congruence.
      + unfold colnames, regular in K. apply in_map_iff in K. destruct K as (c' & Ec' & K). apply filter_In in K. destruct K as [K1 K2]. apply Nr. exists c, c'. repeat split; try congruence. destruct (tc_virtual c'); [discriminate K2|reflexivity]. }
  assert (Sh := iter_shape sc expand cols hc lines None). rewrite Ek in Sh. rewrite Ek in F. specialize (Sh ltac:(intros ->; apply Ne; rewrite <- Ek; reflexivity) F He).
  rewrite Er in E0. destruct Sh as [|[l0 first] y lines' ys Hy Sh]; [discriminate E0|]. cbn [map] in E0. assert (E1 : snd y = r0) by congruence. assert (E2 : map snd ys = rest) by congruence. subst r0 rest. clear E0 Er.
  apply in_map_iff in I. destruct I as (z & <- & Iz). destruct (Forall2_in_r _ _ _ Sh z Iz) as ([l line] & Il & Hz). cbn [snd] in *.
  apply (shape_step cols hdr (length first) (length line) (snd y) (snd z) F Sub' Hy Hz). destruct Hor as [Eh|Le]; [left; exact Eh|right; apply (Le l0 first lines' l line eq_refl Il)].
Qed.
Print Assumptions c65_steps.

(** ** Examples *)
From Coq Require Import String. Local Open Scope string_scope. Local Open Scope list_scope.
(** a world with strings and integers *)
Definition w65 : world value :=
  {| w_tag_ok := fun s => str_mem s [lit "en"; lit "und"];
     w_codec := fun s => if str_mem s [lit "utf-8"] then CKnown else CUnknown;
     w_fetch_schema := fun _ => None; w_fetch_dialect := fun _ _ => Err OtherError;
     w_urljoin := fun b s => Ok (JStr s); w_py_int := fun _ => Err ValueError;
     w_parse := fun b _ j => match j with
       | JStr s => if str_eqb b (lit "string") then Ok (VStr s)
                   else if str_eqb b (lit "integer") then (if negb (str_eqb s []) && all_digits s then Ok (VInt (Z.of_N (val_digits s))) else Err ValueError)
                   else Err ValueError
       | _ => Err TypeError end;
     w_formatted := fun _ _ s => Ok []; w_formatted_none := fun _ _ => Ok (lit "None");
     w_ops := value_ops; w_derived_ok := fun _ _ => Ok tt; w_noisy := fun _ _ _ => false; w_odd_format := fun _ _ => false |}.
Lemma w65_fit : types_fit w65.
Proof.
  constructor; intros f s v H; cbn in H; try discriminate H.
  - injection H as <-. reflexivity.
  - destruct (_ && _); [|discriminate H]. injection H as <-. eexists. reflexivity.
Qed.
Definition jcol (n : string) (more : list (string * json)) : json := JObj (jo (("name", js n) :: more)).
Definition jref (c t rc : string) : json := JObj (jo [("columnReference", js c); ("reference", JObj (jo [("resource", js t); ("columnReference", js rc)]))]).
Definition jtab (u : string) (cols : list json) (pk : string) (fks : list json) : json :=
  JObj (jo [("url", js u); ("tableSchema", JObj (jo [("columns", JList cols); ("primaryKey", js pk); ("foreignKeys", JList fks)]))]).
Definition jgroup (tables : list json) : json := JObj (jo [("@context", js "http://www.w3.org/ns/csvw"); ("tables", JList tables)]).
Definition words_cols := [jcol "ID" []; jcol "Form" [("datatype", js "string")]; jcol "Langs" [("separator", js ";")]; jcol "Size" [("datatype", js "integer")]; jcol "Tags" [("separator", js "|")]].
Definition doc65 : json := jgroup [jtab "words.csv" words_cols "ID" [jref "Langs" "langs.csv" "ID"]; jtab "langs.csv" [jcol "ID" [("required", JBool true)]; jcol "Name" []] "ID" []].
Definition env65 (j : json) : fenv := {| fe_isdir := fun p => str_mem p [lit "."; lit "d"]; fe_join := fun b s => b ++ s; fe_get := fun _ => Err OtherError; fe_dumps := fun _ => lit "{...}"; fe_loads := fun _ => Some j |}.
Definition fs65 (l : list (string * list string)) : files := fun p =>
  if str_eqb p (lit "d/md.json") then Some (Plain (lit "{...}")) else
  match dget str_eqb (map (fun x => (lit ("d/" ++ fst x)%string, Props_Table.crlf (snd x))) l) p with Some t => Some (Plain t) | None => None end.
Notation sc0 := Props_Table.sc0. Notation expand0 := Props_Table.expand0.
Notation no_bounds := (fun _ : value => [] : pystr).
Definition md65 : pystr := lit "d/md.json".
Definition run65 j fs := csvw2sqlite w65 sc0 expand0 131072 (env65 j) toy_py toy_store no_bounds fs md65 None.
(** the result of converting and reading *)
Definition outcome65 j fs := match run65 j fs with (_, Some D, Ok tt) => read_back w65 (env65 j) toy_py toy_store no_bounds fs md65 D | (_, _, Err e) => Err e | _ => Err OtherError end.

Definition prepared_rows j l := match prepare w65 sc0 expand0 131072 (env65 j) no_bounds (fs65 l) md65 with Ok x => Ok (snd x) | Err e => Err e end.
Definition langs65 := ("langs.csv", ["ID,Name"; "l1,English"; "l2,"]).
(** a file with another order of columns, lists, missing values and cells *)
Definition data65 := fs65 [("words.csv", ["ID,Size,Form,Langs,Tags"; "w1,12,hand,l2;l1,a|b c"; "w2,,Hand,,"; "w3"]); langs65].
Notation str s := (POne (VStr (lit s))) (only parsing). Notation strs l := (PList (map (fun t => Some (VStr (lit t))) l)) (only parsing).
Definition cell (x : string * pyval value) : pystr * pyval value := (lit (fst x), snd x).
Definition rows65 : list (pystr * list (dict value)) :=
  [(lit "words.csv", map (map cell) [[("ID", str "w1"); ("Size", POne (VInt 12)); ("Form", str "hand"); ("Langs", strs ["l2"; "l1"]); ("Tags", strs ["a"; "b c"])];
                                     [("ID", str "w2"); ("Size", PNone); ("Form", str "Hand"); ("Langs", PList []); ("Tags", PList [])];
                                     [("ID", str "w3"); ("Form", PNone); ("Langs", PNone); ("Size", PNone); ("Tags", PNone)]]);
   (lit "langs.csv", map (map cell) [[("ID", str "l1"); ("Name", str "English")]; [("ID", str "l2"); ("Name", PNone)]])].
Example c65_result : outcome65 doc65 data65 = Ok
  [(lit "words.csv", map (map cell) [[("ID", str "w1"); ("Form", str "hand"); ("Size", POne (VInt 12)); ("Tags", strs ["a"; "b c"]); ("Langs", strs ["l2"; "l1"])];
                                     [("ID", str "w2"); ("Form", str "Hand"); ("Size", PNone); ("Tags", PList []); ("Langs", PList [])];
                                     [("ID", str "w3"); ("Form", PNone); ("Size", PNone); ("Tags", PNone); ("Langs", PList [])]]);
   (lit "langs.csv", map (map cell) [[("ID", str "l1"); ("Name", str "English")]; [("ID", str "l2"); ("Name", PNone)]])].
Proof. vm_compute. reflexivity. Qed.

(** *** The hypotheses of the theorems hold for it *)
Definition obj65 : mobj value := match group_object w65 (env65 doc65) data65 md65 with Ok o => o | Err _ => MO None [] [] [] end.
Definition ks65 : list ktable := match keyed_tables w65 obj65 with Ok ks => ks | Err _ => [] end.
Definition grp65 : fgroup value := match load_group w65 (load_dtype w65) false obj65 with Ok g => g | Err _ => {| gr_tables := []; gr_dialect := None; gr_base := None; gr_ctx := None; gr_fname := None; gr_doc := Err OtherError |} end.
Definition tables65 : list tablespec := match db_tables no_bounds obj65 ks65 with Ok t => t | Err _ => [] end.
Lemma read65 : has_read w65 sc0 expand0 131072 (env65 doc65) no_bounds data65 md65 ks65 tables65 rows65.
Proof.
  assert (A : match group_object w65 (env65 doc65) data65 md65 with Ok _ => true | Err _ => false end = true) by (vm_compute; reflexivity).
  assert (B : match keyed_tables w65 obj65 with Ok _ => true | Err _ => false end = true) by (vm_compute; reflexivity).
  assert (C : match load_group w65 (load_dtype w65) false obj65 with Ok _ => true | Err _ => false end = true) by (vm_compute; reflexivity).
  assert (D : match db_tables no_bounds obj65 ks65 with Ok _ => true | Err _ => false end = true) by (vm_compute; reflexivity).
  exists obj65, grp65. unfold obj65 at 1, ks65 at 1, grp65 at 1, tables65.
  split; [destruct (group_object _ _ _ _); [reflexivity|discriminate A]|]. split; [destruct (keyed_tables _ _); [reflexivity|discriminate B]|].
  split; [destruct (load_group _ _ _ _); [reflexivity|discriminate C]|]. split; [destruct (db_tables _ _ _); [reflexivity|discriminate D]|]. vm_compute. reflexivity.
Qed.
(** what matters of the tables *)
Definition col_facts (c : col) := (tc_header c, de_separator (c_desc (tc_col c)), st_separator (tc_st c), type_of c, tc_virtual c, st_default (tc_st c)).
Definition facts (k : ktable) := (url_of k, map col_facts (columns k), k_pk k, map (fun f => (fk_schemaReference f, fk_cols f, fk_resource f, fk_refcols f)) (k_fks k)).
Definition cf (h : string) (sep : option pystr) (t : string) : pystr * option pystr * option pystr * pystr * bool * pystr := (lit h, sep, sep, lit t, false, []).
Definition facts_list :=
  [(lit "words.csv", [cf "ID" None "string"; cf "Form" None "string"; cf "Langs" (Some (lit ";")) "string"; cf "Size" None "integer"; cf "Tags" (Some (lit "|")) "string"], Some [lit "ID"],
    [(@None pystr, [lit "Langs"], Some (lit "langs.csv"), [lit "ID"])]);
   (lit "langs.csv", [cf "ID" None "string"; cf "Name" None "string"], Some [lit "ID"], [])].
Lemma facts65 : map facts ks65 = facts_list.
Proof. vm_compute. reflexivity. Qed.
Definition the_key : list (option pystr * list pystr * option pystr * list pystr) := [(None, [lit "Langs"], Some (lit "langs.csv"), [lit "ID"])].
Record words_table (k : ktable) : Prop := { w1_url : url_of k = lit "words.csv"; w1_pk : k_pk k = Some [lit "ID"];
  w1_cols : map col_facts (columns k) = [cf "ID" None "string"; cf "Form" None "string"; cf "Langs" (Some (lit ";")) "string"; cf "Size" None "integer"; cf "Tags" (Some (lit "|")) "string"];
  w1_fks : map (fun f => (fk_schemaReference f, fk_cols f, fk_resource f, fk_refcols f)) (k_fks k) = the_key }.
Record langs_table (k : ktable) : Prop := { w2_url : url_of k = lit "langs.csv"; w2_pk : k_pk k = Some [lit "ID"];
  w2_cols : map col_facts (columns k) = [cf "ID" None "string"; cf "Name" None "string"]; w2_fks : k_fks k = [] }.
Lemma two65 ks : map facts ks = facts_list -> exists k1 k2, ks = [k1; k2] /\ words_table k1 /\ langs_table k2.
Proof.
  intros F. destruct ks as [|k1 [|k2 [|]]]; try discriminate F. exists k1, k2. split; [reflexivity|]. cbn [map] in F. unfold facts in F.
  pose proof (f_equal (fun l => hd (facts k1) l) F) as G1. pose proof (f_equal (fun l => hd (facts k1) (tl l)) F) as G2.
  split; constructor; [exact (f_equal (fun x => fst (fst (fst x))) G1)|exact (f_equal (fun x => snd (fst x)) G1)|exact (f_equal (fun x => snd (fst (fst x))) G1)|exact (f_equal snd G1)|
    exact (f_equal (fun x => fst (fst (fst x))) G2)|exact (f_equal (fun x => snd (fst x)) G2)|exact (f_equal (fun x => snd (fst (fst x))) G2)|].
  pose proof (f_equal snd G2) as G3. cbn [hd tl snd] in G3. destruct (k_fks k2); [reflexivity|discriminate G3].
Qed.
Section Fit65.
Variables (ks : list ktable) (k1 k2 : ktable).
Hypothesis (Ek : ks = [k1; k2]) (T1 : words_table k1) (T2 : langs_table k2).
Lemma col_in (k : ktable) l c : map col_facts (columns k) = l -> In c (columns k) -> In (col_facts c) l.
Proof. intros <- I. apply in_map, I. Qed.
Lemma of_facts (c : col) h s t : col_facts c = cf h s t -> tc_header c = lit h /\ de_separator (c_desc (tc_col c)) = s /\ st_separator (tc_st c) = s /\ type_of c = lit t /\ tc_virtual c = false /\ st_default (tc_st c) = [].
Proof.
  intros E. split; [exact (f_equal (fun x => fst (fst (fst (fst (fst x))))) E)|]. split; [exact (f_equal (fun x => snd (fst (fst (fst (fst x))))) E)|]. split; [exact (f_equal (fun x => snd (fst (fst (fst x)))) E)|].
  split; [exact (f_equal (fun x => snd (fst (fst x))) E)|]. split; [exact (f_equal (fun x => snd (fst x)) E)|exact (f_equal snd E)].
Qed.
Lemma col_with (k : ktable) l h s t : map col_facts (columns k) = l -> In (cf h s t) l -> exists c, In c (columns k) /\ col_facts c = cf h s t.
Proof. intros <- I. apply in_map_iff in I. destruct I as (c & E & I). exists c. split; assumption. Qed.
Lemma no_key2 h res rc : ~ list_key k2 h res rc.
Proof. intros (fk & c & I & _). rewrite (w2_fks _ T2) in I. destruct I. Qed.
Lemma key1 h res rc : list_key k1 h res rc -> h = lit "Langs" /\ res = lit "langs.csv" /\ rc = lit "ID".
Proof.
  intros (fk & c & I & Sr & Fc & Fr & Fd & _). pose proof (in_map (fun f => (fk_schemaReference f, fk_cols f, fk_resource f, fk_refcols f)) _ _ I) as J. rewrite (w1_fks _ T1) in J. destruct J as [J|[]].
  rewrite Sr, Fc, Fr, Fd in J. symmetry in J. split; [exact (f_equal (fun x => hd [] (snd (fst (fst x)))) J)|]. split; [exact (f_equal (fun x => match snd (fst x) with Some r => r | None => [] end) J)|exact (f_equal (fun x => hd [] (snd x)) J)].
Qed.
Lemma key1_is : list_key k1 (lit "Langs") (lit "langs.csv") (lit "ID").
Proof.
  pose proof (w1_fks _ T1) as F. destruct (k_fks k1) as [|fk [|]] eqn:Ef; try discriminate F. pose proof (f_equal (fun l => hd (None, [], None, []) l) F) as G. cbn [map hd the_key] in G.
  pose proof (f_equal (fun x => fst (fst (fst x))) G) as E1. pose proof (f_equal (fun x => snd (fst (fst x))) G) as E2. pose proof (f_equal (fun x => snd (fst x)) G) as E3. pose proof (f_equal snd G) as E4.
  destruct (col_with k1 _ "Langs" (Some (lit ";")) "string" (w1_cols _ T1)) as (x & Ix & Fx); [right; right; left; reflexivity|]. apply of_facts in Fx. destruct Fx as (X1 & X2 & _).
  exists fk, x. rewrite Ef. split; [left; reflexivity|]. split; [exact E1|]. split; [exact E2|]. split; [exact E3|]. split; [exact E4|]. split; [exact Ix|]. split; [exact X1|]. exists 59%N, []. exact X2.
Qed.
Ltac no_in := let X := fresh in intros X; repeat (destruct X as [X|X]; [discriminate X|]); destruct X.
Ltac use_ := split; [discriminate|split; no_in].
Lemma fit65 : names_fit ks.
Proof.
  rewrite Ek. pose proof (w1_url _ T1) as U1. pose proof (w2_url _ T2) as U2.
  assert (Hd1 : map tc_header (columns k1) = map lit ["ID"; "Form"; "Langs"; "Size"; "Tags"]). { transitivity (map (fun x => fst (fst (fst (fst (fst x))))) (map col_facts (columns k1))); [rewrite map_map; reflexivity|]. rewrite (w1_cols _ T1). reflexivity. }
  assert (Hd2 : map tc_header (columns k2) = map lit ["ID"; "Name"]). { transitivity (map (fun x => fst (fst (fst (fst (fst x))))) (map col_facts (columns k2))); [rewrite map_map; reflexivity|]. rewrite (w2_cols _ T2). reflexivity. }
  assert (Us : forall k c, In k [k1; k2] -> In c (columns k) -> usable (tc_header c) /\ tc_virtual c = false /\ forall n, tc_header c <> col_n (Some n)).
  { intros k c [<-|[<-|[]]] Ic; [apply (col_in _ _ _ (w1_cols _ T1)) in Ic|apply (col_in _ _ _ (w2_cols _ T2)) in Ic];
      repeat (destruct Ic as [Ic|Ic]; [symmetry in Ic; apply of_facts in Ic; destruct Ic as (-> & _ & _ & _ & -> & _); split; [use_|split; [reflexivity|intros n X; discriminate X]]|]); destruct Ic. }
  constructor.
  - cbn [map]. rewrite U1, U2. repeat constructor; no_in.
  - intros n x n' x' M M' E.
    assert (Ms : forall m y, makes [k1; k2] m y -> (m = lit "words.csv" /\ y = None) \/ (m = lit "langs.csv" /\ y = None) \/ (m = lit "words.csv_langs.csv" /\ y = Some (lit "words.csv", lit "ID", lit "langs.csv", lit "ID"))).
    { intros m y [k [<-|[<-|[]]]|k p h res rc [<-|[<-|[]]] L Pk]; [left; split; [exact U1|reflexivity]|right; left; split; [exact U2|reflexivity]| |destruct (no_key2 _ _ _ L)].
      right. right. destruct (key1 _ _ _ L) as (-> & -> & ->). rewrite (w1_pk _ T1) in Pk. injection Pk as <-. rewrite U1. split; reflexivity. }
    apply Ms in M, M'. destruct M as [[-> ->]|[[-> ->]|[-> ->]]], M' as [[-> ->]|[[-> ->]|[-> ->]]]; try (split; reflexivity); vm_compute in E; discriminate E.
  - intros k [<-|[<-|[]]]; [rewrite Hd1|rewrite Hd2]; (split; [repeat constructor; no_in|]); intros X; rewrite X in *; discriminate.
  - intros k [<-|[<-|[]]]; [rewrite U1|rewrite U2]; use_.
  - intros k c I Ic. apply (Us k c I Ic).
  - intros k p [<-|[<-|[]]] I; unfold key_columns in I; [rewrite (w1_pk _ T1) in I|rewrite (w2_pk _ T2) in I]; destruct I as [<-|[]].
    + split; [rewrite Hd1; left; reflexivity|]. intros (res & rc & L). destruct (key1 _ _ _ L) as (X & _). discriminate X.
    + split; [rewrite Hd2; left; reflexivity|]. intros (res & rc & L). exact (no_key2 _ _ _ L).
  - intros k fk res [<-|[<-|[]]] I Sr Fr; [|rewrite (w2_fks _ T2) in I; destruct I].
    pose proof (in_map (fun f => (fk_schemaReference f, fk_cols f, fk_resource f, fk_refcols f)) _ _ I) as J. rewrite (w1_fks _ T1) in J. destruct J as [J|[]]. rewrite Sr, Fr in J. unfold the_key in J.
    pose proof (f_equal (fun x => snd (fst (fst x))) J) as E1. pose proof (f_equal (fun x => match snd (fst x) with Some r => r | None => [] end) J) as E2. pose proof (f_equal snd J) as E3. cbn [fst snd] in E1, E2, E3. rewrite <- E1, <- E2, <- E3. split; [use_|]. split; [discriminate|]. split; [discriminate|]. split; (apply Forall_cons; [use_|apply Forall_nil]).
  - intros k h res rc [<-|[<-|[]]] L; [|destruct (no_key2 _ _ _ L)]. destruct (key1 _ _ _ L) as (-> & -> & ->). split; [intros res' rc' L'; destruct (key1 _ _ _ L') as (_ & -> & ->); split; reflexivity|]. split; [no_in|].
    destruct (col_with k1 _ "ID" None "string" (w1_cols _ T1)) as (x & Ix & Fx); [left; reflexivity|]. apply of_facts in Fx. destruct Fx as (X1 & _ & X3 & X4 & _). exists x. rewrite X1, X3, X4. rewrite (w1_pk _ T1). auto.
  - intros k c I Ic V. destruct (Us k c I Ic) as (_ & V' & _). congruence.
  - intros k c n I Ic. apply (Us k c I Ic).
Qed.
End Fit65.
Lemma rows_fit65 ks k rows : map facts ks = facts_list -> In k ks -> In (url_of k, rows) rows65 -> rows_fit toy_py k rows.
Proof.
  intros F. destruct (two65 ks F) as (k1 & k2 & Ek & T1 & T2). rewrite Ek. intros [<-|[<-|[]]] I.
  - rewrite (w1_url _ T1) in I. destruct I as [I|[I|[]]]; [|discriminate (f_equal fst I)]. assert (Er : rows = snd (hd ([], []) rows65)) by (symmetry; exact (f_equal snd I)). subst rows. clear I. constructor.
    + intros r0 rest r E I. assert (E0 : r0 = hd [] (snd (hd ([], []) rows65))) by (rewrite E; reflexivity). assert (E1 : rest = tl (snd (hd ([], []) rows65))) by (rewrite E; reflexivity). subst r0 rest. clear E. destruct I as [<-|[<-|[]]].
      * exists (map cell [("ID", str "w2"); ("Size", PNone); ("Form", str "Hand"); ("Langs", PList []); ("Tags", PList [])]), [], [], []. repeat split; constructor.
      * exists [cell ("ID", str "w3")], (map cell [("Form", PNone); ("Langs", PNone); ("Size", PNone); ("Tags", PNone)]), [], (map lit ["Size"; "Form"; "Langs"; "Tags"]). split; [reflexivity|]. split; [reflexivity|]. split; [|repeat constructor].
        apply Permutation_sym. cbn [map cell fst snd]. exact (Permutation_cons_app [lit "Form"; lit "Langs"] [lit "Tags"] (lit "Size") (Permutation_refl [lit "Form"; lit "Langs"; lit "Tags"])).
    + intros r c v Ir Ic Nl G. pose proof (col_in _ _ _ (w1_cols _ T1) Ic) as Fc.
      assert (Hv : exists h s t, col_facts c = cf h s t /\ In (h, s, t) [("ID", None, "string"); ("Form", None, "string"); ("Langs", Some (lit ";"), "string"); ("Size", None, "integer"); ("Tags", Some (lit "|"), "string")]).
      { destruct Fc as [Fc|[Fc|[Fc|[Fc|[Fc|[]]]]]]; symmetry in Fc; eexists _, _, _; (split; [exact Fc|]); cbn; auto 6. }
      destruct Hv as (h & s & t & Fh & Hh). apply of_facts in Fh. destruct Fh as (Eh & _ & _ & Et & _ & Edf). rewrite Eh in G, Nl. unfold value_kept. rewrite Et, Edf.
      destruct Ir as [<-|[<-|[<-|[]]]]; destruct Hh as [Hh|[Hh|[Hh|[Hh|[Hh|[]]]]]]; injection Hh as <- <- <-; apply (f_equal (fun o => match o with Some x => x | None => PNone end)) in G; vm_compute in G; subst v; try exact I;
        try (left; cbn [In map]; auto; fail); try (left; split; [reflexivity|split; [intros X; repeat (destruct X as [X|X]; [discriminate X|]); destruct X|reflexivity]]).
    + intros r p Ir Pk. rewrite (w1_pk _ T1) in Pk. assert (Ep : p = lit "ID") by (symmetry; exact (f_equal (fun o => match o with Some (x :: _) => x | _ => [] end) Pk)). subst p. destruct Ir as [<-|[<-|[<-|[]]]]; eexists; vm_compute; reflexivity.
    + intros r h l o Ir (res & rc & L) G I. destruct (key1 k1 T1 _ _ _ L) as (-> & _). destruct Ir as [<-|[<-|[<-|[]]]]; apply (f_equal (fun o => match o with Some (PList x) => x | _ => [] end)) in G; vm_compute in G; subst l; try (destruct I; fail).
      destruct I as [<-|[<-|[]]]; (eexists; split; [reflexivity|]; split; [discriminate|intros ch X; repeat (destruct X as [<-|X]; [reflexivity|]); destruct X]).
  - rewrite (w2_url _ T2) in I. destruct I as [I|[I|[]]]; [discriminate (f_equal fst I)|]. assert (Er : rows = snd (hd ([], []) (tl rows65))) by (symmetry; exact (f_equal snd I)). subst rows. clear I. constructor.
    + intros r0 rest r E I. assert (E0 : r0 = hd [] (snd (hd ([], []) (tl rows65)))) by (rewrite E; reflexivity). assert (E1 : rest = tl (snd (hd ([], []) (tl rows65)))) by (rewrite E; reflexivity). subst r0 rest. clear E. destruct I as [<-|[]].
      exists (map cell [("ID", str "l2"); ("Name", PNone)]), [], [], []. repeat split; constructor.
    + intros r c v Ir Ic Nl G. pose proof (col_in _ _ _ (w2_cols _ T2) Ic) as Fc. unfold value_kept.
      assert (Ty : type_of c = lit "string" /\ (tc_header c = lit "ID" \/ tc_header c = lit "Name")). { destruct Fc as [Fc|[Fc|[]]]; symmetry in Fc; apply of_facts in Fc; destruct Fc as (A & _ & _ & B & _); split; auto. }
      destruct Ty as (Ty & Hh). rewrite Ty. destruct Ir as [<-|[<-|[]]]; destruct Hh as [Hh|Hh]; rewrite Hh in G; apply (f_equal (fun o => match o with Some x => x | None => PNone end)) in G; vm_compute in G; subst v; try exact I; left; left; reflexivity.
    + intros r p Ir Pk. rewrite (w2_pk _ T2) in Pk. assert (Ep : p = lit "ID") by (symmetry; exact (f_equal (fun o => match o with Some (x :: _) => x | _ => [] end) Pk)). subst p. destruct Ir as [<-|[<-|[]]]; eexists; vm_compute; reflexivity.
    + intros r h l o Ir (res & rc & L). destruct (no_key2 k2 T2 _ _ _ L).
Qed.
Example c65_nonvacuous :
  (forall l, scan toy_store l = l) /\ (forall l, group_scan toy_store l = l) /\ types_fit w65 /\ (forall s, s_str sc0 s = VStr s) /\
  (exists st D, run65 doc65 data65 = (st, Some D, Ok tt)) /\
  has_read w65 sc0 expand0 131072 (env65 doc65) no_bounds data65 md65 ks65 tables65 rows65 /\
  names_fit ks65 /\ (forall s c, In s tables65 -> In c (ts_cols s) -> bounds_clean c) /\
  (forall k rows, In k ks65 -> In (url_of k, rows) rows65 -> rows_fit toy_py k rows) /\
  (exists k, In k ks65 /\ is_list_key k (lit "Langs")).
Proof.
  split; [reflexivity|]. split; [reflexivity|]. split; [exact w65_fit|]. split; [reflexivity|]. split; [eexists _, _; vm_compute; reflexivity|]. split; [exact read65|].
  destruct (two65 ks65 facts65) as (k1 & k2 & Ek & T1 & T2). split; [apply (fit65 ks65 k1 k2 Ek T1 T2)|].
  split; [|split; [intros k rows; apply (rows_fit65 ks65 k rows facts65)|exists k1; rewrite Ek; split; [left; reflexivity|]; exists (lit "langs.csv"), (lit "ID"); apply (key1_is k1 T1)]].
  assert (B : forallb (fun s => forallb (fun c => match cs_csvw c with None => true | Some d => match di_min d, di_max d with None, None => true | _, _ => false end end) (ts_cols s)) tables65 = true) by (vm_compute; reflexivity).
  intros s c Is Ic. rewrite forallb_forall in B. specialize (B s Is). rewrite forallb_forall in B. specialize (B c Ic). unfold bounds_clean. destruct (cs_csvw c) as [d|]; [|exact I]. destruct (di_min d), (di_max d); try discriminate B. split; intros ? X; discriminate X.
Qed.

(** *** What is lost otherwise *)
Definition abc := jgroup [jtab "t.csv" [jcol "A" []; jcol "B" []; jcol "C" []] "A" []].
(** a first line with fewer cells, in a file with another order of columns than in the description: the values of the others are in the wrong columns, silently *)
Theorem c65_first_row_refuted :
  outcome65 abc (fs65 [("t.csv", ["A,C,B"; "1"; "2,c,b"])]) =
    Ok [(lit "t.csv", map (map cell) [[("A", str "1"); ("B", PNone); ("C", PNone)]; [("A", str "2"); ("B", str "c"); ("C", str "b")]])] /\
  outcome65 abc (fs65 [("t.csv", ["A,C,B"; "2,c,b"; "1"])]) =
    Ok [(lit "t.csv", map (map cell) [[("A", str "2"); ("B", str "b"); ("C", str "c")]; [("A", str "1"); ("B", PNone); ("C", PNone)]])].
Proof. split; vm_compute; reflexivity. Qed.
Print Assumptions c65_first_row_refuted.
(** null as an item of a list comes back as the empty string *)
Theorem c65_null_items_refuted :
  prepared_rows (jgroup [jtab "t.csv" [jcol "A" []; jcol "B" [("separator", js "|")]] "A" []]) [("t.csv", ["A,B"; "1,a||b"])] =
    Ok [(lit "t.csv", [map cell [("A", str "1"); ("B", PList [Some (VStr (lit "a")); None; Some (VStr (lit "b"))])]])] /\
  outcome65 (jgroup [jtab "t.csv" [jcol "A" []; jcol "B" [("separator", js "|")]] "A" []]) (fs65 [("t.csv", ["A,B"; "1,a||b"])]) =
    Ok [(lit "t.csv", [map cell [("A", str "1"); ("B", PList [Some (VStr (lit "a")); Some (VStr []); Some (VStr (lit "b"))])]])].
Proof. split; vm_compute; reflexivity. Qed.
Print Assumptions c65_null_items_refuted.
(** tables whose url is the name of an argument of Database.write cannot be converted *)
Theorem c65_argument_names_refuted :
  map (fun n => outcome65 (jgroup [jtab n [jcol "A" []] "A" []]) (fs65 [(n, ["A"; "1"])])) ["force"; "self"; "_skip_extra"; "forced"] =
    [Err TypeError; Err TypeError; Err TypeError; Ok [(lit "forced", [[cell ("A", str "1")]])]].
Proof. vm_compute. reflexivity. Qed.
Print Assumptions c65_argument_names_refuted.
(** an existing database is lost when rows cannot be inserted, but not when they cannot be read *)
Theorem c65_overwrite_refuted :
  let old := [{| tb_name := lit "old"; tb_cols := []; tb_pk := []; tb_fks := []; tb_rows := [[SNull]] |}] in
  let run lines := match csvw2sqlite w65 sc0 expand0 131072 (env65 abc) toy_py toy_store no_bounds (fs65 [("t.csv", lines)]) md65 (Some old) with
                   | (_, final, r) => (option_map (map (fun t => (tb_name t, tb_rows t))) final, r) end in
  run ["A,B,C"; "1,2,3"; "1,3,4"] = (Some [(lit "t.csv", [])], Err IntegrityError) /\
  run ["A,B,C"; "1,2,""3"] = (Some [(lit "old", [[SNull]])], Err CsvError).
Proof. split; vm_compute; reflexivity. Qed.
Print Assumptions c65_overwrite_refuted.
