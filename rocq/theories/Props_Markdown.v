(** C59: the markdown description of a dataset (csvw2markdown). *)
From Verif Require Import PyStr Dec Dsv Json Names NamesSpec Frictionless Markdown MarkdownSpec MarkdownProofs3 MarkdownProofs4 MarkdownProofs5.

(** Read as a list of sections with tables, the markdown has the title; a row for each property of the group; then for each table, in order, a section with
    its anchor, a row for each of its properties, and a row of three cells for each of its columns: name (and property URL), datatype, description. *)
Theorem c59_document : forall U str_of space word g link s,
  space 124 = false -> word 124 = false -> one_line_text (str_of JNull) ->
  metadata2markdown U str_of space word g link = Ok s -> tidy_group str_of space word g ->
  document_says U str_of space word g link (read_document s).
Proof. intros U str_of space word g link s Hs Hw Hn. exact (document_ok U str_of space word Hs Hw Hn g link s). Qed.
Print Assumptions c59_document.

(** There is a markdown description exactly if: descriptions are texts, images are texts or objects, every table has a dialect (or the group has one),
    foreign keys of one column refer to a table with a URL and at least one column, formats are texts, and the names of the tables have a slug. *)
Theorem c59_renders : forall U str_of space word g link,
  NoDup (map fst (mg_props g)) -> Forall (fun t => NoDup (map fst (mt_props t))) (mg_tables g) ->
  (exists s, metadata2markdown U str_of space word g link = Ok s) <-> renderable U g.
Proof. exact renders. Qed.
Print Assumptions c59_renders.

Lemma F2_nth {A B} (R : A -> B -> Prop) l m i a : Forall2 R l m -> nth_error l i = Some a -> exists b, nth_error m i = Some b /\ R a b.
Proof.
  intros H. revert i. induction H as [|x y l m Hxy _ IH]; intros i E; [destruct i; discriminate|]. destruct i as [|i]; [cbn in E; injection E as <-; exists y; split; [reflexivity|exact Hxy]|]. exact (IH i E).
Qed.
Lemma refers_unique ks n : forall k1 k2, refers_to ks n k1 -> refers_to ks n k2 -> k1 = k2.
Proof.
  intros k1 k2. induction ks as [|k ks IH]; [intros (l1 & l2 & E & _); destruct l1; discriminate|]. intros (a1 & b1 & E1 & C1 & F1) (a2 & b2 & E2 & C2 & F2). destruct a1 as [|x1 a1], a2 as [|x2 a2]; cbn [app] in E1, E2.
  - congruence.
  - injection E1 as _ E1. injection E2 as _ E2. rewrite <- E1, E2 in F1. exfalso. rewrite Forall_forall in F1. apply (F1 k2); [apply in_or_app; right; left; reflexivity|exact C2].
  - injection E1 as _ E1. injection E2 as _ E2. rewrite <- E2, E1 in F2. exfalso. rewrite Forall_forall in F2. apply (F2 k1); [apply in_or_app; right; left; reflexivity|exact C1].
  - injection E1 as _ E1. injection E2 as _ E2. apply IH; [exists a1, b1; auto|exists a2, b2; auto].
Qed.
(** The row of a column with a foreign key ends with a link, and the section of the referenced table starts with the anchor of that link. *)
Theorem c59_links : forall U str_of space word g link s i t j c n k i' t' col cols,
  space 124 = false -> word 124 = false -> one_line_text (str_of JNull) ->
  metadata2markdown U str_of space word g link = Ok s -> tidy_group str_of space word g ->
  nth_error (mg_tables g) i = Some t -> nth_error (mt_cols t) j = Some c -> mc_name c = Some n -> refers_to (mt_fks t) n k -> mf_refcols k = col :: cols ->
  nth_error (mg_tables g) i' = Some t' -> mf_resource k = Some (mt_url t') ->
  exists a sec row before sec' rest,
    nth_error (do_sections (read_document s)) i = Some sec /\ nth_error (se_cols sec) j = Some row /\
    last row [] = before ++ lit "References [" ++ mt_url t' ++ lit "::" ++ col ++ lit "](#table-" ++ a ++ lit ")" /\
    nth_error (do_sections (read_document s)) i' = Some sec' /\ se_header sec' = lit "## <a name=" ++ [34] ++ lit "table-" ++ a ++ [34] ++ rest.
Proof.
  intros U str_of space word g link s i t j c n k i' t' col cols Hs Hw Hn H T Ei Ej En R Er Ei' Ek. pose proof (c59_document U str_of space word g link s Hs Hw Hn H T) as D. destruct (F2_nth _ _ _ _ _ (ds_sections _ _ _ _ _ _ _ D) Ei) as (sec & E1 & S1).
  destruct (F2_nth _ _ _ _ _ (ds_sections _ _ _ _ _ _ _ D) Ei') as (sec' & E2 & S2). destruct (F2_nth _ _ _ _ _ (ss_cols _ _ _ _ _ _ _ _ S1) Ej) as (row & E3 & (dt & d & ky & r & _ & _ & _ & Rs & ->)).
  destruct (ss_header _ _ _ _ _ _ _ _ S2) as (a & Ha & Hh). destruct Rs as [(n' & k' & tab & col' & cols' & a' & En' & R' & Et & Ec & Sl & ->)|[X _]]; [|exfalso; exact (X n k En R)].
  assert (n' = n) by congruence. subst n'. rewrite (refers_unique _ _ _ _ R' R) in Et, Ec. assert (tab = mt_url t') as -> by congruence. assert (col' = col) as -> by congruence. assert (a' = a) as -> by congruence.
  assert (J : exists before, join (lit "<br>") (parts [d; ky; Some (link_to (mt_url t') col a)]) = before ++ link_to (mt_url t') col a).
  { destruct d as [d|], ky as [ky|]; unfold parts; cbn [map concat app].
    - exists (d ++ lit "<br>" ++ ky ++ lit "<br>"). rewrite <- !app_assoc. reflexivity.
    - exists (d ++ lit "<br>"). rewrite <- !app_assoc. reflexivity.
    - exists (ky ++ lit "<br>"). rewrite <- !app_assoc. reflexivity.
    - exists []. reflexivity. }
  destruct J as (before & J). assert (Hr : exists rest, se_header sec' = lit "## <a name=" ++ [34] ++ lit "table-" ++ a ++ [34] ++ rest).
  { destruct Hh as [->|(_ & _ & ->)]; unfold section_start; eexists; rewrite <- !app_assoc; reflexivity. }
  destruct Hr as (rest & Hr). exists a, sec, (row3 (name_says c) dt (join (lit "<br>") (parts [d; ky; Some (link_to (mt_url t') col a)]))), (lit " " ++ before), sec', rest.
  split; [exact E1|]. split; [exact E3|]. split; [|split; [exact E2|exact Hr]]. unfold row3. cbn [last]. rewrite J. unfold link_to. rewrite <- !app_assoc. reflexivity.
Qed.
Print Assumptions c59_links.

(** *** Examples *)
Definition ascii_unicode : unicode := {| nfd := fun s => s; is_mn := fun _ => false; py_lower := ascii_lower |}.
Definition json_text (j : json) : pystr := match j with JNull => lit "None" | JBool true => lit "True" | JBool false => lit "False" | JFloat r => r | _ => lit "?" end.
Definition wordc (c : N) : bool := is_letter c || is_digit c || (c =? 95).
Definition md := metadata2markdown ascii_unicode json_text is_space wordc.
Definition col0 (n : pystr) : mcol := {| mc_name := Some n; mc_url := None; mc_datatype := None; mc_sep := None; mc_props := [] |}.
Definition tab0 (u : pystr) (cs : list mcol) : mtable :=
  {| mt_url := u; mt_props := []; mt_dialect := None; mt_datatype := None; mt_exists := false; mt_pk := []; mt_fks := []; mt_cols := cs |}.
Definition languages : mtable :=
  {| mt_url := lit "languages.csv"; mt_props := [(lit "dc:conformsTo", JStr (lit "http://cldf.clld.org")); (lit "dc:description", JStr (lit "All" ++ [LF] ++ lit "languages"))];
     mt_dialect := None; mt_datatype := None; mt_exists := true; mt_pk := [lit "ID"]; mt_fks := [{| mf_cols := [lit "Family"]; mf_refcols := [lit "ID"]; mf_resource := Some (lit "families.csv") |}];
     mt_cols := [{| mc_name := Some (lit "ID"); mc_url := Some (lit "http://cldf.clld.org/id"); mc_datatype := Some {| md_base := lit "string"; md_format := JStr (lit "[a-z]+"); md_min := None; md_max := None |}; mc_sep := None; mc_props := [] |};
                 {| mc_name := Some (lit "Family"); mc_url := None; mc_datatype := Some {| md_base := lit "string"; md_format := JStr (lit "a|b c"); md_min := None; md_max := None |}; mc_sep := Some (lit ";"); mc_props := [(lit "dc:description", JStr (lit "the" ++ [LF] ++ lit "family"))] |}] |}.
Definition group1 : mgroup :=
  {| mg_props := [(lit "dc:title", JStr (lit "A dataset")); (lit "dc:license", JStr (lit "CC-BY")); (lit "rdf:ID", JList [JStr (lit "x"); JBool true])]; mg_fname := Some (lit "md.json"); mg_dialect := Some [(lit "delimiter", JStr (lit ";"))];
     mg_tables := [languages; tab0 (lit "families.csv") [col0 (lit "ID")]] |}.
Example c59_nonvacuous : exists s, md group1 true = Ok s /\
  (exists sec1 sec2, do_sections (read_document s) = [sec1; sec2] /\ se_header sec1 = lit "## <a name=" ++ [34] ++ lit "table-languagescsv" ++ [34] ++ lit "></a>Table [languages.csv](languages.csv)" /\
     se_cols sec1 = [[lit "[ID](http://cldf.clld.org/id) "; lit " `string`<br>Regex: `[a-z]+` "; lit " Primary key"];
                     [lit "`Family` "; lit " list of `string`<br>Valid choices:<br> `a` `b c` (separated by `;`) "; lit " the family<br>References [families.csv::ID](#table-familiescsv)"]] /\
     se_cols sec2 = [[lit "`ID` "; lit " `string` "; lit " "]]) /\
  do_first (read_document s) = lit "# A dataset" /\
  do_props (read_document s) = [[lit "[dc:license](http://purl.org/dc/terms/license) "; lit " CC-BY"]; [lit "[rdf:ID](http://www.w3.org/1999/02/22-rdf-syntax-ns#ID) "; lit " <ol><li>x</li><li>True</li></ol>"]].
Proof. eexists. split; [vm_compute; reflexivity|]. split; [eexists; eexists; split; [vm_compute; reflexivity|]; split; [vm_compute; reflexivity|]; split; vm_compute; reflexivity|]. split; vm_compute; reflexivity. Qed.
Ltac absent := vm_compute; intuition discriminate.
Lemma quiet_bool s : forallb (fun l => negb (startswith section_start l) && negb (str_eqb l property_header) && negb (str_eqb l column_header)) (lines_of s) = true -> quiet s.
Proof.
  intros H. unfold quiet. rewrite Forall_forall. rewrite forallb_forall in H. intros l I. specialize (H l I). apply andb_true_iff in H. destruct H as [H C]. apply andb_true_iff in H. destruct H as [A B]. apply negb_true_iff in A, B, C.
  split; [exact A|]. split; intros ->; [rewrite str_eqb_refl in B; discriminate|rewrite str_eqb_refl in C; discriminate].
Qed.
Example c59_tidy : tidy_group json_text is_space wordc group1 /\ renderable ascii_unicode group1.
Proof.
  split.
  - constructor.
    + absent.
    + intros f E. injection E as <-. absent.
    + intros d E. injection E as <-. cbn. auto.
    + repeat constructor; absent.
    + constructor; [left; reflexivity|]. constructor; [right; unfold tidy_property; cbn [fst snd]; repeat split; absent|]. constructor; [right; unfold tidy_property; cbn [fst snd]; repeat split; absent|]. constructor.
    + constructor; [|constructor; [|constructor]].
      * constructor; [absent|repeat constructor; absent| |discriminate|constructor; [|constructor]|].
        -- constructor; [unfold tidy_property; cbn [fst snd]; repeat split; absent|]. constructor; [|constructor]. unfold tidy_property; cbn [fst snd]. apply quiet_bool. reflexivity.
        -- cbn [mf_refcols mf_resource]. split; [constructor; [split; absent|constructor]|]. intros r E. injection E as <-. split; absent.
        -- constructor; [|constructor; [|constructor]].
           ++ constructor; try (split; absent); [discriminate|]. intros d E. injection E as <-. cbn [md_base md_format md_min md_max]. split; [split; absent|]. split; [|intros b m [E|E]; discriminate]. intros f E. injection E as <-. split; [absent|right; absent].
           ++ constructor; try (split; absent); [intros s E; vm_compute in E; injection E as <-; absent|]. intros d E. injection E as <-. cbn [md_base md_format md_min md_max]. split; [split; absent|]. split; [|intros b m [E|E]; discriminate]. intros f E. injection E as <-. split; [absent|left].
              unfold choices. vm_compute. repeat (constructor; [split; [discriminate|repeat constructor; first [left; reflexivity|right; reflexivity]]|]). constructor.
      * constructor; [absent|constructor|constructor|discriminate|constructor|]. constructor; [|constructor]. constructor; try (split; absent); discriminate.
  - apply (proj1 (c59_renders ascii_unicode json_text is_space wordc group1 true ltac:(repeat constructor; absent) ltac:(repeat constructor; absent))). eexists. vm_compute. reflexivity.
Qed.

(** *** What is not so *)
Definition group_of (d : option jdict) (ts : list mtable) : mgroup := {| mg_props := []; mg_fname := None; mg_dialect := d; mg_tables := ts |}.
(** A group without a dialect is not rendered. *)
Theorem c59_no_dialect_refuted : forall t ts U str_of space word link,
  mt_dialect t = None -> ~ exists s, metadata2markdown U str_of space word (group_of None (t :: ts)) link = Ok s.
Proof.
  intros t ts U str_of space word link D (s & H). unfold metadata2markdown in H. cbn zeta in H. destruct (properties str_of _) as [p|]; cbn [bind] in H; [|discriminate]. cbn [group_of mg_tables mapM] in H. unfold table_md in H at 1. rewrite D in H. cbn [group_of mg_dialect] in H.
  destruct (fks_of t); cbn [bind] in H; [|discriminate]. destruct (slug U true true (mt_url t)); cbn [bind] in H; [|discriminate]. destruct (properties str_of (mt_props t)); discriminate H.
Qed.
(** A number format that is an object makes it fail. *)
Theorem c59_format_object_refuted :
  md (group_of (Some []) [tab0 (lit "t.csv") [{| mc_name := Some (lit "x"); mc_url := None; mc_sep := None; mc_props := [];
      mc_datatype := Some {| md_base := lit "decimal"; md_format := JObj [(lit "pattern", JStr (lit "0.0"))]; md_min := None; md_max := None |} |}]]) false = Err TypeError.
Proof. reflexivity. Qed.
(** A minimum of zero is not shown. *)
Theorem c59_minimum_zero_refuted :
  exists s, md (group_of (Some []) [tab0 (lit "t.csv") [{| mc_name := Some (lit "x"); mc_url := None; mc_sep := None; mc_props := [];
      mc_datatype := Some {| md_base := lit "integer"; md_format := JNull; md_min := Some (false, lit "0"); md_max := None |} |}]]) false = Ok s /\
  map se_cols (do_sections (read_document s)) = [[[lit "`x` "; lit " `integer` "; lit " "]]].
Proof. eexists. split; vm_compute; reflexivity. Qed.
(** A regular expression with a vertical bar breaks the row. *)
Theorem c59_regex_bar_refuted :
  exists s, md (group_of (Some []) [tab0 (lit "t.csv") [{| mc_name := Some (lit "x"); mc_url := None; mc_sep := None; mc_props := [];
      mc_datatype := Some {| md_base := lit "string"; md_format := JStr (lit "(a|b)"); md_min := None; md_max := None |} |}]]) false = Ok s /\
  map se_cols (do_sections (read_document s)) = [[[lit "`x` "; lit " `string`<br>Regex: `(a"; lit "b)` "; lit " "]]].
Proof. eexists. split; vm_compute; reflexivity. Qed.
(** Two tables can have the same anchor. *)
Theorem c59_anchors_refuted :
  exists s sec1 sec2, md (group_of (Some []) [tab0 (lit "a-b.csv") []; tab0 (lit "ab.csv") []]) false = Ok s /\ do_sections (read_document s) = [sec1; sec2] /\
  startswith (lit "## <a name=" ++ [34] ++ lit "table-abcsv" ++ [34]) (se_header sec1) = true /\ startswith (lit "## <a name=" ++ [34] ++ lit "table-abcsv" ++ [34]) (se_header sec2) = true.
Proof. eexists. eexists. eexists. split; [vm_compute; reflexivity|]. split; [vm_compute; reflexivity|]. split; reflexivity. Qed.
(** A datatype that the column inherits from the table is not shown: string is. *)
Theorem c59_inherited_refuted :
  exists s, md (group_of (Some []) [{| mt_url := lit "t.csv"; mt_props := []; mt_dialect := None; mt_exists := false; mt_pk := []; mt_fks := []; mt_cols := [col0 (lit "x")];
      mt_datatype := Some {| md_base := lit "integer"; md_format := JNull; md_min := None; md_max := None |} |}]) false = Ok s /\
  map se_cols (do_sections (read_document s)) = [[[lit "`x` "; lit " `string` "; lit " "]]].
Proof. eexists. split; vm_compute; reflexivity. Qed.
(** An image that is given by its URL is shown as None. *)
Theorem c59_image_refuted : forall url, url <> [] -> properties json_text [(lit "https://schema.org/image", JStr url)] = Ok (lit "![](None)" ++ [LF; LF]).
Proof. intros [|c url] N; [congruence|]. reflexivity. Qed.
