(** C51: CSVW.to_json.  The Section variables and record fields are what libraries do. *)
From Verif Require Import PyStr PyCsv Dsv DsvProofs4 Json Dec NatLang Column Schema Table Values Jsonld JsonldSpec JsonldProofs TripleProofs FrictionlessProofs2 DbReadProofs5 Csv2json Csv2jsonSpec Csv2jsonProofs Csv2jsonProofs2 Datatype Props_Column.

(** The object of a table: url, notes, common properties, comments, and one object for each row read, in order, with the triples of [row_described]. *)
Theorem c51_table : forall V (sc : scalars V) (F : json_fns V) lim nometa t out, distinct_headers t -> proper_common t -> table_to_json sc F lim nometa t = Ok out -> table_converted sc F lim nometa t out.
Proof. intros. apply table_ok; assumption. Qed.
Print Assumptions c51_table.

(** The object of a group: its common properties; one object for each table that is not suppressed, in order. *)
Theorem c51_group : forall V (sc : scalars V) (F : json_fns V) lim nometa g common tables,
  (forall t, In t (jg_tables g) -> distinct_headers t /\ proper_common t) ->
  (forall props, jg_common g = Some props -> NoDup (map fst props) /\ forall k, In k (map fst props) -> char_mem 58 k = true) ->
  group_to_json sc F lim nometa g = Ok (common, tables) ->
  Forall2 (table_converted sc F lim nometa) (filter (fun t => negb (jt_suppress t)) (jg_tables g)) tables /\
  match jg_common g with
  | Some props => forall k v, In (k, v) props -> exists j, to_json true v = Ok j /\ dget str_eqb common (if str_eqb k (lit "rdf:type") then lit "@type" else k) = Some (OJson j)
  | None => common = []
  end.
Proof.
  intros V sc F lim nometa g common tables Ht Hg H. unfold group_to_json in H. apply bind_inv in H. destruct H as (r & H1 & H). apply bind_inv in H. destruct H as (ts & H2 & H). apply Ok_inj in H. injection H as -> ->. split.
  - apply mapM_Forall2 in H2. eapply Forall2_weaken; [|exact H2]. intros t out I E. apply filter_In in I. destruct I as [I _]. destruct (Ht t I). apply table_ok; assumption.
  - destruct (jg_common g) as [props|]; [|apply Ok_inj in H1; congruence]. destruct (Hg props eq_refl) as [N C]. destruct props as [|p ps]; [intros k v []|]. destruct (update_ok _ _ _ _ N C H1) as (_ & U & _). exact U.
Qed.
Print Assumptions c51_group.

(** Without URL templates and virtual columns every row is described by exactly one object: the cells that are not hidden, with their (formatted) values, in order.
    The conversion of the row fails only if the formatting of a value does. *)
Theorem c51_plain : forall V (sc : scalars V) (F : json_fns V) lim nometa t, plain t -> distinct_headers t ->
  forall line row, In (line, row) (io_rows (lax_rows sc F lim t)) -> forall n r,
  row_to_json sc F nometa t row n line = Ok r <->
  jr_url r = jt_url t ++ lit "#row=" ++ digits_of (N.of_nat line) /\ jr_num r = n /\ titles_given sc (jt_row_titles t) row (jr_titles r) /\
  exists o, shown F nometa t 1 row o /\ jr_describes r = [map (fun kv => (fst kv, Raw (snd kv))) o].
Proof.
  intros V sc F lim nometa t P D line row I n r. assert (N : NoDup (map fst row)).
  { pose proof (dicts_nodup sc (jf_expand_row F) lim (jt_dialect t) (jt_lang t) false false (map jc_col (jcols t)) (jt_file t)) as X. rewrite Forall_forall in X. exact (X _ I). }
  unfold row_to_json. split.
  - intros H. apply bind_inv in H. destruct H as (ds & H1 & H). apply Ok_inj in H. subst r. cbn [jr_url jr_num jr_titles jr_describes]. apply plain_describes in H1; try assumption. split; [reflexivity|split; [reflexivity|split; [apply titles_ok|exact H1]]].
  - destruct r as [u m ti ds]. cbn [jr_url jr_num jr_titles jr_describes]. intros (-> & -> & T & O). apply titles_iff in T. subst ti. apply (plain_describes sc F nometa t row n P D N) in O. rewrite O. reflexivity.
Qed.
Print Assumptions c51_plain.

(** Minimal mode: exactly one object for each row of each table that is not suppressed, in order: the first one of those that describe the row. *)
Theorem c51_minimal : forall V (sc : scalars V) (F : json_fns V) lim nometa g os,
  minimal_json sc F lim nometa g = Ok os <->
  exists common tables rows, group_to_json sc F lim nometa g = Ok (common, tables) /\
    Forall2 (fun t rs => dget str_eqb t (lit "row") = Some (ORows rs)) tables rows /\
    Forall2 (fun r o => exists more, jr_describes r = o :: more) (concat rows) os.
Proof.
  intros V sc F lim nometa g os. unfold minimal_json. split.
  - intros H. apply bind_inv in H. destruct H as ([common tables] & H1 & H). apply bind_inv in H. destruct H as (ls & H2 & H). apply Ok_inj in H. subst os. cbn [snd] in H2. apply mapM_Forall2 in H2.
    enough (X : exists rows, Forall2 (fun t rs => dget str_eqb t (lit "row") = Some (ORows rs)) tables rows /\ Forall2 (fun r o => exists more, jr_describes r = o :: more) (concat rows) (concat ls)) by (destruct X as (rows & X1 & X2); exists common, tables, rows; auto).
    clear H1. induction H2 as [|t os ts ls H H2 IH]; [exists []; split; constructor|]. destruct IH as (rows & X1 & X2). apply bind_inv in H. destruct H as (rs & E1 & E2). exists (rs :: rows). split.
    + constructor; [|exact X1]. unfold rows_of in E1. destruct (dget str_eqb t (lit "row")) as [[j|l]|]; try discriminate E1. apply Ok_inj in E1. congruence.
    + cbn [concat]. apply Forall2_app; [|exact X2]. apply mapM_Forall2 in E2. eapply Forall2_weaken; [|exact E2]. intros r o _ E. unfold first_described in E. destruct (jr_describes r) as [|o' more]; [discriminate E|]. apply Ok_inj in E. subst o'. exists more. reflexivity.
  - intros (common & tables & rows & -> & X1 & X2). cbn [bind snd]. revert os X2. induction X1 as [|t rs tables rows E X1 IH]; intros os X2; [inversion X2; reflexivity|]. cbn [concat] in X2. apply Forall2_app_inv_l in X2. destruct X2 as (o1 & o2 & Y1 & Y2 & ->). specialize (IH o2 Y2).
    cbn [mapM]. apply bind_inv in IH. destruct IH as (ls & E1 & E2). apply Ok_inj in E2. rewrite E1. unfold rows_of. rewrite E. cbn [bind]. assert (X : mapM first_described rs = Ok o1).
    { clear -Y1. induction Y1 as [|r o rs o1 (more & E) Y IH]; [reflexivity|]. cbn [mapM]. unfold first_described at 1. rewrite E. cbn [bind]. rewrite IH. reflexivity. }
    rewrite X. cbn [bind concat]. rewrite E2. reflexivity.
Qed.
Print Assumptions c51_minimal.

(** *** Examples *)
Definition F0 : json_fns value := {|
  jf_expand_row := fun u _ => Ok u;
  (* 'x{id}' -> 'x1': the value of id is appended *)
  jf_expand := fun u row _ _ _ => Ok (u ++ match dget str_eqb row (lit "id") with Some (POne (VStr s)) => s | _ => [] end);
  jf_format := fun _ v => Ok v;
  jf_eq_str := fun v s => match v with VStr x => str_eqb x s | _ => false end;
  jf_as_str := fun v => match v with VStr s => Some s | _ => None end;
  jf_graph := fun _ => Ok [];
|}.
Definition mkcol (h : String.string) (d : desc value) (virtual suppress : bool) : jcol value :=
  {| jc_col := {| tc_col := {| c_desc := d; c_name := Some (lit h); c_titles := None; c_virtual := virtual; c_number := None |}; tc_header := lit h; tc_st := settings_of d [] |}; jc_suppress := suppress |}.
Definition tab (cols : list (jcol value)) (file : pystr) : jtable value :=
  {| jt_url := lit "t.csv"; jt_id := None; jt_notes := JList [JStr (lit "n")]; jt_common := [(lit "dc:title", JObj [(lit "@value", JStr (lit "T"))]); (lit "rdf:type", JStr (lit "x"))]; jt_schema := desc0; jt_table := desc0; jt_outer := [];
     jt_cols := cols; jt_row_titles := [lit "id"]; jt_suppress := false; jt_lang := lit "und"; jt_dialect := default_dialect; jt_file := file |}.
Definition sep_desc : desc value := {| de_aboutUrl := None; de_datatype := None; de_default := []; de_lang := lit "und"; de_null := [[]]; de_propertyUrl := None; de_required := None; de_separator := Some (lit ";"); de_valueUrl := None |}.
Definition ex_t : jtable value := tab [mkcol "id"%string desc0 false false; mkcol "tags"%string sep_desc false false; mkcol "x"%string desc0 false true] (lit "id,tags,x" ++ [13; 10] ++ lit "#c" ++ [13; 10] ++ lit "1,a;b,9" ++ [13; 10] ++ lit "2,,8" ++ [13; 10]).
Definition s1 (s : String.string) : tree (option value) := One (Some (VStr (lit s))).
Example c51_nonvacuous : distinct_headers ex_t /\ proper_common ex_t /\ plain ex_t /\
  table_to_json sc0 F0 131072 false ex_t = Ok
    [(lit "url", OJson (JStr (lit "t.csv"))); (lit "notes", OJson (JList [JStr (lit "n")])); (lit "dc:title", OJson (JStr (lit "T"))); (lit "@type", OJson (JStr (lit "x"))); (lit "rdfs:comment", OJson (JList [JStr (lit "c")]));
     (lit "row", ORows
       [{| jr_url := lit "t.csv#row=3"; jr_num := 1; jr_titles := Some (TOne (POne (VStr (lit "1")))); jr_describes := [[(lit "id", Raw (s1 "1"%string)); (lit "tags", Raw (Many [s1 "a"%string; s1 "b"%string]))]] |};
        {| jr_url := lit "t.csv#row=4"; jr_num := 2; jr_titles := Some (TOne (POne (VStr (lit "2")))); jr_describes := [[(lit "id", Raw (s1 "2"%string))]] |}])] /\
  minimal_json sc0 F0 131072 false {| jg_common := None; jg_tables := [ex_t] |} = Ok [[(lit "id", Raw (s1 "1"%string)); (lit "tags", Raw (Many [s1 "a"%string; s1 "b"%string]))]; [(lit "id", Raw (s1 "2"%string))]].
Proof.
  split; [repeat constructor; cbn; intuition discriminate|]. split; [split; [repeat constructor; cbn; intuition discriminate|intros k [<-|[<-|[]]]; reflexivity]|]. split; [constructor; repeat constructor|]. split; vm_compute; reflexivity.
Qed.
(** *** What does not hold *)
Definition url_desc (about prop val : option pystr) : desc value := {| de_aboutUrl := about; de_datatype := None; de_default := []; de_lang := lit "und"; de_null := [[]]; de_propertyUrl := prop; de_required := None; de_separator := None; de_valueUrl := val |}.
Definition one_row : pystr := lit "id" ++ [13; 10] ++ lit "1" ++ [13; 10].
Definition described (F : json_fns value) (t : jtable value) : res (list (list (described_object value))) :=
  out <- table_to_json sc0 F 131072 false t ;; rows <- rows_of out ;; Ok (map jr_describes rows).
(** suppressOutput is ignored for virtual columns *)
Example c51_suppressed_virtual_refuted :
  described F0 (tab [mkcol "id"%string desc0 false false; mkcol "v"%string (url_desc None None (Some (lit "u"))) true true] one_row) = Ok [[[(lit "id", Raw (s1 "1"%string)); (lit "v", Raw (s1 "u1"%string))]]].
Proof. vm_compute. reflexivity. Qed.
(** a virtual column without valueUrl is output with the value null *)
Example c51_virtual_null_refuted :
  described F0 (tab [mkcol "id"%string desc0 false false; mkcol "v"%string desc0 true false] one_row) = Ok [[[(lit "id", Raw (s1 "1"%string)); (lit "v", Raw (One None))]]].
Proof. vm_compute. reflexivity. Qed.
(** an empty list in a column whose separator is inherited from the table is output, in a column with a separator of its own it is not *)
Example c51_inherited_separator_refuted :
  let c := {| jc_col := {| tc_col := {| c_desc := desc0; c_name := Some (lit "l"); c_titles := None; c_virtual := false; c_number := None |}; tc_header := lit "l"; tc_st := settings_of desc0 [sep_desc] |}; jc_suppress := false |} in
  let file := lit "id,l" ++ [13; 10] ++ lit "1," ++ [13; 10] in
  described F0 (tab [mkcol "id"%string desc0 false false; c] file) = Ok [[[(lit "id", Raw (s1 "1"%string)); (lit "l", Raw (Many []))]]] /\
  described F0 (tab [mkcol "id"%string desc0 false false; mkcol "l"%string sep_desc false false] file) = Ok [[[(lit "id", Raw (s1 "1"%string))]]].
Proof. split; vm_compute; reflexivity. Qed.
(** without columns the properties are named '_col.N', although the file has a header *)
Example c51_no_columns_refuted : described F0 (tab [] one_row) = Ok [[[(lit "_col.1", Raw (s1 "1"%string))]]].
Proof. vm_compute. reflexivity. Qed.
(** minimal mode: of a row that describes two subjects only the first one is output *)
Definition F1 : json_fns value := {|
  jf_expand_row := jf_expand_row F0; jf_expand := jf_expand F0; jf_format := jf_format F0; jf_eq_str := jf_eq_str F0; jf_as_str := jf_as_str F0;
  jf_graph := fun ts => Ok (map (fun t => [(lit "@id", JStr (match t_about t with Some s => s | None => [] end)); (t_prop t, JList [JObj [(lit "@value", JStr (match t_val t with One (Some (VStr s)) => s | _ => [] end))]])]) ts);
|}.
Definition two_subjects : jtable value := tab [mkcol "id"%string (url_desc (Some (lit "s")) None None) false false; mkcol "v"%string (url_desc (Some (lit "o")) None (Some (lit "u"))) true false] one_row.
Example c51_minimal_loses_refuted :
  described F1 two_subjects = Ok [[[(lit "@id", Js (JStr (lit "s1"))); (lit "id", Js (JStr (lit "1")))]; [(lit "@id", Js (JStr (lit "o1"))); (lit "v", Js (JStr (lit "u1")))]]] /\
  minimal_json sc0 F1 131072 false {| jg_common := None; jg_tables := [two_subjects] |} = Ok [[(lit "@id", Js (JStr (lit "s1"))); (lit "id", Js (JStr (lit "1")))]].
Proof. split; vm_compute; reflexivity. Qed.
(** subjects that refer to each other are lost (see C45), and without any subject minimal mode raises IndexError *)
Definition F2 : json_fns value := {|
  jf_expand_row := jf_expand_row F0; jf_expand := jf_expand F0; jf_format := jf_format F0; jf_eq_str := jf_eq_str F0; jf_as_str := jf_as_str F0;
  jf_graph := fun ts => Ok (map (fun t => [(lit "@id", JStr (match t_about t with Some s => s | None => [] end)); (t_prop t, JList [JObj [(lit "@id", JStr (match t_val t with One (Some (VStr s)) => s | _ => [] end))]])]) ts);
|}.
Definition cyclic : jtable value := tab [mkcol "id"%string (url_desc (Some (lit "s")) None (Some (lit "o"))) false false; mkcol "v"%string (url_desc (Some (lit "o")) None (Some (lit "s"))) true false] one_row.
Example c51_minimal_cycle_refuted : described F2 cyclic = Ok [[]] /\ minimal_json sc0 F2 131072 false {| jg_common := None; jg_tables := [cyclic] |} = Err IndexError.
Proof. split; vm_compute; reflexivity. Qed.
