(** Property theorems C24, C25, C26, C36.  Vocabulary: ColumnSpec.v, ValuesSpec.v. *)
From Verif Require Import PyStr Dsv Json NatLang Dec Numeric NumericSpec Dates Datatype Column ColumnSpec ColumnProofs ColumnProofs2 NatLangProofs Values ValuesSpec ValuesProofs.

(** * C24: Column.read *)
Theorem c24_read : forall V (sc : scalars V) st (text : pystr) r, st_separator st <> Some [] ->
  fst (col_read sc true st text) = r <-> cell_reads sc st text r.
Proof. exact @col_read_spec. Qed.
Print Assumptions c24_read.
(** the separator in force is never the empty string *)
Theorem c24_separator : forall V (c : desc V) ps, st_separator (settings_of c ps) <> Some [].
Proof. intros V c ps. cbn. destruct (inherit de_separator c ps) as [[|x s]|]; discriminate. Qed.
Print Assumptions c24_separator.
Theorem c24_required_never_none : forall V (sc : scalars V) strict st text w,
  st_required st = true -> col_read sc strict st text <> (Ok PNone, w).
Proof. exact @required_never_none. Qed.
Print Assumptions c24_required_never_none.

Definition sc0 : scalars value := value_scalars (fun _ => []) (fun _ => []).
Definition st0 : @settings value :=
  {| st_required := false; st_null := [[]]; st_default := []; st_separator := None; st_datatype := None |}.
Definition st_list : @settings value :=
  {| st_required := false; st_null := [lit "NA"]; st_default := lit "x"; st_separator := Some (lit ";");
     st_datatype := Some (dt_boolean JNull no_facets) |}.
Example c24_nonvacuous :
  fst (col_read sc0 true st_list (lit "1;NA;false")) = Ok (PList [Some (VBool true); None; Some (VBool false)])
  /\ fst (col_read sc0 true st_list (lit "NA")) = Ok PNone
  /\ fst (col_read sc0 true st_list []) = Err ValueError
  /\ fst (col_read sc0 false st_list (lit "1;;0")) = Ok (PList [Some (VStr (lit "1")); Some (VStr (lit "x")); Some (VStr (lit "0"))])
  /\ fst (col_read sc0 true st0 (lit "a")) = Ok (POne (VStr (lit "a"))).
Proof. repeat split; vm_compute; reflexivity. Qed.

(** * C25: Column.read(Column.write(v)) *)
(** a single value: the exact condition for any datatype ... *)
Theorem c25_scalar : forall V (sc : scalars V) st t v s, st_separator st = None -> st_datatype st = Some t ->
  dt_fmt t v = Ok s ->
  col_write sc st (POne v) = Ok (CStr s)
  /\ (fst (col_read sc true st s) = Ok (POne v)
      <-> exists s', with_default st s s' /\ ~ In s' (st_null st) /\ dt_reads t s' = Ok v).
Proof. exact @scalar_roundtrip. Qed.
Print Assumptions c25_scalar.
(** ... which the modelled datatypes meet for all their values *)
Theorem c25_typed : forall py_str py_repr babel udigit (st : @settings value) t v,
  typed_value babel udigit t v -> st_separator st = None -> st_datatype st = Some t ->
  exists s, col_write (value_scalars py_str py_repr) st (POne v) = Ok (CStr s)
    /\ (~ In s (st_null st) -> s <> [] \/ st_default st = [] ->
        fst (col_read (value_scalars py_str py_repr) true st s) = Ok (POne v)).
Proof. exact typed_cell_roundtrip. Qed.
Print Assumptions c25_typed.
(** numbers always round-trip unless a null value looks like a number *)
Theorem c25_numbers : forall py_str py_repr babel udigit (st : @settings value) t v,
  typed_value babel udigit t v -> number_value v -> st_separator st = None -> st_datatype st = Some t ->
  (forall s, In s (st_null st) -> ~ Forall number_char s \/ s = []) ->
  exists s, col_write (value_scalars py_str py_repr) st (POne v) = Ok (CStr s)
    /\ fst (col_read (value_scalars py_str py_repr) true st s) = Ok (POne v).
Proof. exact number_cell_roundtrip. Qed.
Print Assumptions c25_numbers.
(** strings without datatype *)
Theorem c25_string : forall V (sc : scalars V) st s,
  (forall a b, s_str sc a = s_str sc b -> a = b) -> (forall a, s_cell sc (s_str sc a) = CStr a) ->
  st_separator st = None -> st_datatype st = None ->
  col_write sc st (POne (s_str sc s)) = Ok (CStr s)
  /\ (fst (col_read sc true st s) = Ok (POne (s_str sc s))
      <-> ~ In s (st_null st) /\ (s = [] -> st_default st = [])).
Proof. exact @string_roundtrip. Qed.
Print Assumptions c25_string.
(** None *)
Theorem c25_none : forall V (sc : scalars V) st n more, st_separator st = None -> st_null st = n :: more ->
  col_write sc st PNone = Ok (CStr n)
  /\ (fst (col_read sc true st n) = Ok PNone
      <-> st_required st = false /\ (n = [] -> In (st_default st) (st_null st))).
Proof. exact @none_roundtrip. Qed.
Print Assumptions c25_none.
(** None in a list-valued column is written as the empty string, like [], and comes back as [] *)
Theorem c25_none_in_list_column : forall V (sc : scalars V) st sep, st_separator st = Some sep ->
  col_write sc st PNone = Ok (CStr []) /\ col_write sc st (PList []) = Ok (CStr [])
  /\ (st_default st = [] -> st_required st = false -> fst (col_read sc true st []) = Ok (PList [])).
Proof.
  intros V sc st sep H. unfold col_write, col_read. rewrite H. split; [reflexivity|]. split; [reflexivity|].
  intros Hd Hr. cbn [or_default]. rewrite Hd, Hr. reflexivity.
Qed.
Print Assumptions c25_none_in_list_column.
(** lists, for any separator and datatype: elements must not contain the first character of the separator *)
Theorem c25_list : forall V (sc : scalars V) st c sep vals ss, st_separator st = Some (c :: sep) -> vals <> [] ->
  Forall2 (fun o s => fmt_one sc st o = Ok (CStr s)) vals ss ->
  (forall s, In s ss -> ~ In c s) ->
  let text := join (c :: sep) ss in
  text <> [] -> ~ In text (st_null st) ->
  col_write sc st (PList vals) = Ok (CStr text)
  /\ (fst (col_read sc true st text) = Ok (PList vals)
      <-> Forall2 (fun s v => exists s', with_default st s s' /\ value_reads sc st s' (Ok v)) ss vals).
Proof. exact @list_roundtrip. Qed.
Print Assumptions c25_list.
(** lists of strings with the usual settings: the exact condition *)
Theorem c25_string_list : forall V (sc : scalars V) st c (vals : list (option pystr)),
  (forall a b, s_str sc a = s_str sc b -> a = b) -> (forall a, s_cell sc (s_str sc a) = CStr a) ->
  plain_list st c ->
  exists text, col_write sc st (PList (map (option_map (s_str sc)) vals)) = Ok (CStr text)
  /\ (fst (col_read sc true st text) = Ok (PList (map (option_map (s_str sc)) vals))
      <-> vals <> [None] /\ forall s, In (Some s) vals -> s <> [] /\ ~ In c s).
Proof. exact @string_list_roundtrip. Qed.
Print Assumptions c25_string_list.
(** lists of numbers *)
Theorem c25_number_list : forall py_str py_repr babel udigit (st : @settings value) t c sep vals,
  Forall (fun v => typed_value babel udigit t v /\ number_value v) vals -> st_separator st = Some (c :: sep) -> st_datatype st = Some t ->
  ~ number_char c -> (forall s, In s (st_null st) -> ~ Forall (fun x => number_char x \/ In x (c :: sep)) s \/ s = []) ->
  st_default st = [] \/ vals <> [] -> st_required st = false \/ vals <> [] ->
  exists s, col_write (value_scalars py_str py_repr) st (PList (map Some vals)) = Ok (CStr s)
    /\ fst (col_read (value_scalars py_str py_repr) true st s) = Ok (PList (map Some vals)).
Proof. exact number_list_roundtrip. Qed.
Print Assumptions c25_number_list.
(** with a separator of several characters, elements free of the separator are not enough *)
Theorem c25_long_separator_refuted : exists st s,
  st_separator st = Some (lit "||")
  /\ col_write sc0 st (PList [Some (VStr (lit "a|")); Some (VStr (lit "b"))]) = Ok (CStr s)
  /\ fst (col_read sc0 true st s) = Ok (PList [Some (VStr (lit "a")); Some (VStr (lit "|b"))]).
Proof.
  exists {| st_required := false; st_null := [[]]; st_default := []; st_separator := Some (lit "||"); st_datatype := None |}, (lit "a|||b").
  repeat split; vm_compute; reflexivity.
Qed.
Print Assumptions c25_long_separator_refuted.
Definition st_int : @settings value :=
  {| st_required := false; st_null := [lit "-1"]; st_default := []; st_separator := None;
     st_datatype := Some (dt_integer (fun _ => None) (fun _ _ => Err OtherError) (lit "integer") no_range no_facets) |}.
(** a value whose text is a null value is lost *)
Theorem c25_null_number_refuted : exists st s,
  col_write sc0 st (POne (VInt (-1))) = Ok (CStr s) /\ fst (col_read sc0 true st s) = Ok PNone.
Proof. exists st_int, (lit "-1"). split; vm_compute; reflexivity. Qed.
Print Assumptions c25_null_number_refuted.
Example c25_nonvacuous :
  typed_value (fun _ _ => Err OtherError) (fun _ => None) (dt_integer (fun _ => None) (fun _ _ => Err OtherError) (lit "integer") no_range no_facets) (VInt 42)
  /\ col_write sc0 st_int (POne (VInt 42)) = Ok (CStr (lit "42")) /\ fst (col_read sc0 true st_int (lit "42")) = Ok (POne (VInt 42))
  /\ plain_list {| st_required := false; st_null := [[]]; st_default := []; st_separator := Some [59]; st_datatype := @None (dtype value) |} 59.
Proof.
  split.
  - apply tv_integer; [left; reflexivity|exact I|vm_compute; reflexivity|reflexivity].
  - repeat split; vm_compute; reflexivity.
Qed.

(** * C26: inheritance *)
Theorem c26_inherit : forall V A (get : desc V -> option A) d parents r,
  nearest get (d :: parents) r <-> inherit get d parents = r.
Proof. exact @inherit_iff. Qed.
Print Assumptions c26_inherit.
(** ... in particular for what reading and writing use *)
Theorem c26_settings : forall V (d : desc V) parents rq sp dt nl,
  nearest de_required (d :: parents) rq -> nearest de_separator (d :: parents) sp ->
  nearest de_datatype (d :: parents) dt -> nearest own_null (d :: parents) nl ->
  let st := settings_of d parents in
  st_required st = getdef rq false /\ st_separator st = nonempty_opt sp /\ st_datatype st = getdef dt None
  /\ st_null st = getdef nl [[]] /\ st_default st = de_default d.
Proof.
  intros V d parents rq sp dt nl H1 H2 H3 H4 st. apply c26_inherit in H1. apply c26_inherit in H2. apply c26_inherit in H3.
  unfold st, settings_of. cbn. rewrite H1, H2, H3, (null_nearest d parents nl H4). auto.
Qed.
Print Assumptions c26_settings.
Definition with_default_str {V} (s : pystr) : desc V :=
  {| de_aboutUrl := None; de_datatype := None; de_default := s; de_lang := lit "und"; de_null := [[]];
     de_propertyUrl := None; de_required := None; de_separator := None; de_valueUrl := None |}.
Definition with_null {V} (n : list pystr) : desc V :=
  {| de_aboutUrl := None; de_datatype := None; de_default := []; de_lang := lit "und"; de_null := n;
     de_propertyUrl := None; de_required := None; de_separator := None; de_valueUrl := None |}.
(** default is not inherited *)
Theorem c26_default_refuted : exists parents : list (desc value),
  In (with_default_str (lit "x")) parents /\ fst (col_read sc0 true (settings_of desc0 parents) []) = Ok PNone.
Proof. exists [with_default_str (lit "x")]. split; [left; reflexivity|vm_compute; reflexivity]. Qed.
Print Assumptions c26_default_refuted.
Theorem c26_lang_refuted : exists (d : desc value) parents, de_lang d = lit "und" /\
  (forall p, In p parents -> de_lang p = lit "de") /\ parents <> [] /\ inherit_str de_lang d parents = lit "und".
Proof.
  exists desc0, [{| de_aboutUrl := None; de_datatype := None; de_default := []; de_lang := lit "de"; de_null := [[]];
     de_propertyUrl := None; de_required := None; de_separator := None; de_valueUrl := None |}].
  repeat split; [intros p [<-|[]]; reflexivity|discriminate].
Qed.
Print Assumptions c26_lang_refuted.
(** null = [""] on the column does not override another null further out *)
Theorem c26_null_refuted : exists (c p : desc value), de_null c = [[]] /\ de_null p = [lit "NA"]
  /\ fst (col_read sc0 true (settings_of c [p]) (lit "NA")) = Ok PNone
  /\ fst (col_read sc0 true (settings_of c [p]) []) = Ok (POne (VStr [])).
Proof. exists (with_null [[]]), (with_null [lit "NA"]). repeat split; vm_compute; reflexivity. Qed.
Print Assumptions c26_null_refuted.
Example c26_nonvacuous : nearest de_separator [desc0; desc0 (V:=value);
     {| de_aboutUrl := None; de_datatype := None; de_default := []; de_lang := lit "und"; de_null := [[]];
        de_propertyUrl := None; de_required := None; de_separator := Some (lit ";"); de_valueUrl := None |}; desc0] (Some (lit ";")).
Proof. apply (nearest_some _ [desc0; desc0]); [intros d [<-|[<-|[]]]; reflexivity|reflexivity]. Qed.

(** * C36: titles *)
Theorem c36_roundtrip : forall tag_ok v nl, distinct_keys v -> nl_init tag_ok v = Ok nl ->
  nl_init tag_ok (nl_asdict nl) = Ok nl.
Proof. exact nl_init_roundtrip. Qed.
Print Assumptions c36_roundtrip.
(** nothing is lost by add(), and titles are kept in order *)
Theorem c36_add : forall hist nl lang,
  titles (add_all nl hist) lang = titles nl lang ++ map fst (filter (fun e => dkey_eqb lang (snd e)) hist).
Proof. exact titles_history. Qed.
Print Assumptions c36_add.
(** constructed and extended titles come back the same if there are plain titles only or none at all,
    and with 'und' for the plain ones otherwise, if 'und' was not used itself *)
Theorem c36_history : forall tag_ok v nl0 hist, distinct_keys v -> nl_init tag_ok v = Ok nl0 ->
  (forall k, In (Some k) (map snd hist) -> tag_ok k = true) ->
  let nl := add_all nl0 hist in
  (map fst nl = [None] \/ ~ In None (map fst nl) -> nl_init tag_ok (nl_asdict nl) = Ok nl)
  /\ (tag_ok (lit "und") = true -> In None (map fst nl) -> map fst nl <> [None] -> ~ In (Some (lit "und")) (map fst nl) ->
      nl_init tag_ok (nl_asdict nl) = Ok (und_for_none nl)).
Proof. exact history_roundtrip. Qed.
Print Assumptions c36_history.
(** the titles under 'und' are lost when plain titles are added *)
Theorem c36_und_refuted : exists nl, nl_init (fun _ => true) (JObj [(lit "und", JStr (lit "a"))]) = Ok nl
  /\ nl_asdict (nl_add nl (lit "b") None) = JObj [(lit "und", JStr (lit "b"))].
Proof. eexists. split; vm_compute; reflexivity. Qed.
Print Assumptions c36_und_refuted.
(** an invalid language given to add() makes the description unreadable *)
Theorem c36_bad_lang_refuted : exists tag_ok nl, nl_init tag_ok (JStr (lit "a")) = Ok nl
  /\ nl_init tag_ok (nl_asdict (nl_add nl (lit "b") (Some (lit "??")))) = Err ValueError.
Proof. exists (fun s => str_eqb s (lit "und")). eexists. split; vm_compute; reflexivity. Qed.
Print Assumptions c36_bad_lang_refuted.
Example c36_nonvacuous : exists nl, nl_init (fun _ => true) (JObj [(lit "en", JList [JStr (lit "a"); JStr (lit "b")]); (lit "de", JStr (lit "c"))]) = Ok nl
  /\ titles nl (Some (lit "en")) = [lit "a"; lit "b"]
  /\ nl_asdict (nl_add nl (lit "d") None) = JObj [(lit "en", JList [JStr (lit "a"); JStr (lit "b")]); (lit "de", JStr (lit "c")); (lit "und", JStr (lit "d"))].
Proof. eexists. repeat split; vm_compute; reflexivity. Qed.
