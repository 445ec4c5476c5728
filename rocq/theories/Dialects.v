(** Construction, serialisation and caching of csvw.Dialect
    (/repo/src/csvw/dsv_dialects.py:22-160, /repo/src/csvw/utils.py:18-60).
    Attribute values are arbitrary JSON values. *)
From Verif Require Import PyStr Dsv Json.

(** ** utils.converter: utils.py:18-27 *)
Inductive pytype := TStr | TBool | TInt | TList | TStrOrBool.
(** isinstance(s, type_), with True/False excluded for int (utils.py:24) *)
Definition isinst (t : pytype) (v : json) : bool :=
  match t, v with
  | TStr, JStr _ => true
  | TBool, JBool _ => true
  | TInt, JInt _ => true
  | TList, JList _ => true
  | TStrOrBool, (JStr _ | JBool _) => true
  | _, _ => false
  end.

(** utils.py:20-21, the recursive calls on list items: default None, no
    allow_none; items that come out as None are dropped.  [None] = dropped. *)
Fixpoint conv_item (t : pytype) (cond : json -> bool) (v : json) : option json :=
  match v with
  | JList l =>
      Some (JList ((fix go l := match l with
                                | [] => []
                                | x :: l' => match conv_item t cond x with
                                             | Some y => y :: go l'
                                             | None => go l'
                                             end
                                end) l))
  | _ => if isinst t v && cond v then Some v else None
  end.

(** utils.py:18-27 with allow_list=True (its default, never overridden for Dialect) *)
Definition converter (t : pytype) (default : json) (allow_none : bool) (cond : json -> bool) (v : json) : json :=
  match t, v with
  | TList, _ => if isinst t v && cond v then v else default
  | _, JList _ => match conv_item t cond v with Some w => w | None => default end
  | _, JNull => if allow_none then JNull else default
  | _, _ => if isinst t v && cond v then v else default
  end.

Definition no_cond (_ : json) : bool := true.
(** [lambda s: s >= 0] *)
Definition nonneg (v : json) : bool := match v with JInt z => Z.leb 0 z | _ => false end.

(** ** attrs: generic initialisation and asdict *)
(** one attr.ib: name, default, converter, validator *)
Record aspec := {
  a_name : pystr;
  a_default : json;
  a_conv : json -> res json;
  a_valid : json -> res unit;
}.
Definition attrs := list (pystr * json).

Definition init_attr (kw : attrs) (a : aspec) : res json :=
  a_conv a (getdef (dget str_eqb kw (a_name a)) (a_default a)).
(** cls( **kw ): unknown names are TypeErrors, converters run first (on defaults
    too), then the validators *)
Definition attrs_init (spec : list aspec) (kw : attrs) : res attrs :=
  if negb (forallb (fun kv => str_mem (fst kv) (map a_name spec)) kw) then Err TypeError
  else
    vals <- mapM (init_attr kw) spec ;;
    _ <- mapM (fun av => a_valid (fst av) (snd av)) (combine spec vals) ;;
    Ok (combine (map a_name spec) vals).

(** utils.attr_asdict: utils.py:47-58 (no nested asdict values, no private names) *)
Definition attrs_asdict (spec : list aspec) (omit_defaults : bool) (o : attrs) : attrs :=
  filter (fun kv => negb (omit_defaults &&
            match find (fun a => str_eqb (a_name a) (fst kv)) spec with
            | Some a => py_eq (snd kv) (a_default a)
            | None => false
            end)) o.

(** ** The attributes of Dialect: dsv_dialects.py:51-117 *)
(** result of ['x'.encode(name)] *)
Inductive codec_result := CKnown | CUnknown | CRaises (e : exn).

Definition crlf_lf : json := JList [JStr [CR; LF]; JStr [LF]].
Definition trim_words : list pystr := [lit "true"; lit "false"; lit "start"; lit "end"].

Definition valid_type (t : pytype) (v : json) : res unit :=
  if isinst t v then Ok tt else Err TypeError.
(** non_negative_int: dsv_dialects.py:25-31 *)
Definition valid_nonneg (v : json) : res unit :=
  match v with
  | JInt z => if Z.ltb z 0 then Err ValueError else Ok tt
  | JBool _ => Ok tt         (* isinstance(True, int) *)
  | _ => Err TypeError
  end.

Section WithCodecs.
Variable codec : pystr -> codec_result.

(** dsv_dialects.py:20-22 ENCODING_MAP.get(s, s) *)
Definition encoding_map (s : pystr) : pystr :=
  if str_eqb s (lit "UTF-8-BOM") then lit "utf-8-sig" else s.
(** dsv_dialects.py:34-41 convert_encoding; a list is unhashable in ENCODING_MAP.get *)
Definition convert_encoding (v : json) : res json :=
  match converter TStr (JStr (lit "utf-8")) false no_cond v with
  | JStr s => match codec (encoding_map s) with
              | CKnown => Ok (JStr s)
              | CUnknown => Ok (JStr (lit "utf-8"))
              | CRaises e => Err e
              end
  | _ => Err TypeError
  end.

Definition mk (n : pystr) (d : json) (c : json -> json) (v : json -> res unit) : aspec :=
  {| a_name := n; a_default := d; a_conv := fun x => Ok (c x); a_valid := v |}.

(** dsv_dialects.py:51-117 in order of definition *)
Definition dialect_spec : list aspec :=
  [ {| a_name := lit "encoding"; a_default := JStr (lit "utf-8"); a_conv := convert_encoding;
       a_valid := valid_type TStr |};
    mk (lit "lineTerminators") crlf_lf (converter TList crlf_lf false no_cond) (fun _ => Ok tt);
    mk (lit "quoteChar") (JStr [34]) (converter TStr (JStr [34]) true no_cond) (fun _ => Ok tt);
    mk (lit "doubleQuote") (JBool true) (converter TBool (JBool true) false no_cond) (valid_type TBool);
    mk (lit "skipRows") (JInt 0) (converter TInt (JInt 0) false nonneg) valid_nonneg;
    mk (lit "commentPrefix") (JStr (lit "#")) (converter TStr (JStr (lit "#")) true no_cond)
       (fun v => match v with JNull => Ok tt | _ => valid_type TStr v end);
    mk (lit "header") (JBool true) (converter TBool (JBool true) false no_cond) (valid_type TBool);
    mk (lit "headerRowCount") (JInt 1) (converter TInt (JInt 1) false nonneg) valid_nonneg;
    mk (lit "delimiter") (JStr (lit ",")) (converter TStr (JStr (lit ",")) false no_cond) (valid_type TStr);
    mk (lit "skipColumns") (JInt 0) (converter TInt (JInt 0) false nonneg) valid_nonneg;
    mk (lit "skipBlankRows") (JBool false) (converter TBool (JBool false) false no_cond) (valid_type TBool);
    mk (lit "skipInitialSpace") (JBool false) (converter TBool (JBool false) false no_cond) (valid_type TBool);
    mk (lit "trim") (JStr (lit "false"))
       (fun v => converter TStrOrBool (JStr (lit "false")) false no_cond
                   (match v with JBool true => JStr (lit "true") | JBool false => JStr (lit "false") | _ => v end))
       (fun v => match v with JStr s => if str_mem s trim_words then Ok tt else Err ValueError | _ => Err ValueError end)
  ].

(** Dialect( **kw ) and asdict: dsv_dialects.py:43-117, :144-145 *)
Definition dialect_init (kw : attrs) : res attrs := attrs_init dialect_spec kw.
Definition dialect_asdict (omit_defaults : bool) (o : attrs) : attrs :=
  attrs_asdict dialect_spec omit_defaults o.

(** ** A dialect object in use *)
(** attributes plus the functools.cached_property slots in __dict__ *)
Record dobj := {
  o_attrs : attrs;
  c_escape : option json;
  c_terms : option json;
  c_trim : option trimmode;
}.
Definition fresh (a : attrs) : dobj :=
  {| o_attrs := a; c_escape := None; c_terms := None; c_trim := None |}.
Definition attr_of (a : attrs) (n : pystr) : json := getdef (dget str_eqb a n) JNull.

(** dsv_dialects.py:125-127 *)
Definition compute_escape (a : attrs) : json :=
  match attr_of a (lit "quoteChar") with
  | JNull => JNull
  | _ => JStr (if truthy (attr_of a (lit "doubleQuote")) then [34] else [92])
  end.
(** dsv_dialects.py:129-132 *)
Definition compute_terms (a : attrs) : json :=
  match attr_of a (lit "lineTerminators") with
  | JStr s => JList [JStr s]
  | v => v
  end.
(** dsv_dialects.py:134-141 *)
Definition trim_of_word (s : pystr) : option trimmode :=
  if str_eqb s (lit "true") then Some TrimTrue
  else if str_eqb s (lit "false") then Some TrimFalse
  else if str_eqb s (lit "start") then Some TrimStart
  else if str_eqb s (lit "end") then Some TrimEnd else None.
Definition compute_trim (a : attrs) : res trimmode :=
  match attr_of a (lit "trim") with
  | JStr s => match trim_of_word s with Some t => Ok t | None => Err KeyError end
  | JList _ | JObj _ => Err TypeError
  | _ => Err KeyError
  end.
(** x[0] *)
Definition item0 (v : json) : res json :=
  match v with
  | JList (x :: _) => Ok x
  | JList [] => Err IndexError
  | JStr (c :: _) => Ok (JStr [c])
  | JStr [] => Err IndexError
  | JObj _ => Err KeyError
  | _ => Err TypeError
  end.

(** accessing a cached property: compute and store on first access *)
Definition get_escape (o : dobj) : json * dobj :=
  match c_escape o with
  | Some v => (v, o)
  | None => let v := compute_escape (o_attrs o) in
            (v, {| o_attrs := o_attrs o; c_escape := Some v; c_terms := c_terms o; c_trim := c_trim o |})
  end.
Definition get_terms (o : dobj) : json * dobj :=
  match c_terms o with
  | Some v => (v, o)
  | None => let v := compute_terms (o_attrs o) in
            (v, {| o_attrs := o_attrs o; c_escape := c_escape o; c_terms := Some v; c_trim := c_trim o |})
  end.
Definition get_trim (o : dobj) : res trimmode * dobj :=
  match c_trim o with
  | Some v => (Ok v, o)
  | None => match compute_trim (o_attrs o) with
            | Ok v => (Ok v, {| o_attrs := o_attrs o; c_escape := c_escape o; c_terms := c_terms o; c_trim := Some v |})
            | Err e => (Err e, o)
            end
  end.
(** dsv_dialects.py:149-160; 'strict': True is constant and left out *)
Record params := {
  p_delimiter : json; p_doublequote : json; p_escapechar : json;
  p_lineterminator : json; p_quotechar : json; p_skipinitialspace : json;
}.
Definition get_params (o : dobj) : res params * dobj :=
  let a := o_attrs o in
  let e := if truthy (attr_of a (lit "doubleQuote")) then (JNull, o) else get_escape o in
  let t := get_terms (snd e) in
  (lt <- item0 (fst t) ;;
   Ok {| p_delimiter := attr_of a (lit "delimiter"); p_doublequote := attr_of a (lit "doubleQuote");
         p_escapechar := fst e; p_lineterminator := lt;
         p_quotechar := attr_of a (lit "quoteChar");
         p_skipinitialspace := attr_of a (lit "skipInitialSpace") |}, snd t).

(** setattr(d, n, v): attr.s objects neither convert nor validate on assignment *)
Definition set_attr (o : dobj) (n : pystr) (v : json) : dobj :=
  {| o_attrs := dset str_eqb (o_attrs o) n v; c_escape := c_escape o; c_terms := c_terms o; c_trim := c_trim o |}.

(** dsv_dialects.py:119-123 updated( **kw ) *)
Definition updated (o : dobj) (kw : attrs) : res dobj :=
  a <- dialect_init (o_attrs o) ;;
  Ok (fold_left (fun acc kv => set_attr acc (fst kv) (snd kv)) kw (fresh a)).

(** what can be done with a dialect object *)
Inductive dop := OpSet (n : pystr) (v : json) | OpEscape | OpTerms | OpTrim | OpParams.
Definition run_op (o : dobj) (op : dop) : dobj :=
  match op with
  | OpSet n v => set_attr o n v
  | OpEscape => snd (get_escape o)
  | OpTerms => snd (get_terms o)
  | OpTrim => snd (get_trim o)
  | OpParams => snd (get_params o)
  end.
Definition run_ops (o : dobj) (ops : list dop) : dobj := fold_left run_op ops o.

End WithCodecs.

(** The typed record used by the readers and writers (Dsv.dialect), if every
    attribute has a suitable type. *)
Definition j_str (v : json) : option pystr := match v with JStr s => Some s | _ => None end.
Definition j_bool (v : json) : option bool := match v with JBool b => Some b | _ => None end.
Definition j_nat (v : json) : option nat :=
  match v with JInt z => if Z.leb 0 z then Some (Z.to_nat z) else None | _ => None end.
Definition j_optstr (v : json) : option (option pystr) :=
  match v with JStr s => Some (Some s) | JNull => Some None | _ => None end.
Fixpoint j_strs (l : list json) : option (list pystr) :=
  match l with
  | [] => Some []
  | JStr s :: l' => match j_strs l' with Some r => Some (s :: r) | None => None end
  | _ :: _ => None
  end.
Definition j_trim (v : json) : option trimmode := match v with JStr s => trim_of_word s | _ => None end.
Notation "'do' x <- e ; f" := (match e with Some x => f | None => None end)
  (at level 61, x name, e at next level, right associativity, only parsing).
Definition to_dialect (a : attrs) : option dialect :=
  do e <- j_str (attr_of a (lit "encoding"));
  do l <- (match attr_of a (lit "lineTerminators") with JList l => j_strs l | JStr s => Some [s] | _ => None end);
  do q <- j_optstr (attr_of a (lit "quoteChar"));
  do dq <- j_bool (attr_of a (lit "doubleQuote"));
  do sr <- j_nat (attr_of a (lit "skipRows"));
  do cp <- j_optstr (attr_of a (lit "commentPrefix"));
  do h <- j_bool (attr_of a (lit "header"));
  do hc <- j_nat (attr_of a (lit "headerRowCount"));
  do dl <- j_str (attr_of a (lit "delimiter"));
  do sc <- j_nat (attr_of a (lit "skipColumns"));
  do sb <- j_bool (attr_of a (lit "skipBlankRows"));
  do si <- j_bool (attr_of a (lit "skipInitialSpace"));
  do t <- j_trim (attr_of a (lit "trim"));
  Some {| d_encoding := e; d_lineTerminators := l; d_quoteChar := q; d_doubleQuote := dq; d_skipRows := sr;
          d_commentPrefix := cp; d_header := h; d_headerRowCount := hc; d_delimiter := dl; d_skipColumns := sc;
          d_skipBlankRows := sb; d_skipInitialSpace := si; d_trim := t |}.
