(** metadata.Datatype: constraints. *)
From Verif Require Import PyStr Dec Numeric Dates.

(** The registered datatypes (datatypes.py:30-1000) by the class whose isinstance checks matter here. *)
Inductive dclass := CAny | CString | CBase64 | CHex | CBool | CDatetime | CDuration | CDecimal | CFloat.
Definition dclass_eqb (a b : dclass) : bool :=
  match a, b with
  | CAny, CAny | CString, CString | CBase64, CBase64 | CHex, CHex | CBool, CBool | CDatetime, CDatetime
  | CDuration, CDuration | CDecimal, CDecimal | CFloat, CFloat => true
  | _, _ => false
  end.
Definition DATATYPES : list (pystr * dclass) :=
  [ (lit "any", CAny); (lit "string", CString); (lit "anyURI", CString); (lit "NMTOKEN", CString);
    (lit "base64Binary", CBase64); (lit "binary", CBase64); (lit "hexBinary", CHex); (lit "boolean", CBool);
    (lit "datetime", CDatetime); (lit "dateTime", CDatetime); (lit "date", CDatetime); (lit "dateTimeStamp", CDatetime);
    (lit "time", CDatetime); (lit "duration", CDuration); (lit "dayTimeDuration", CDuration); (lit "yearMonthDuration", CDuration);
    (lit "decimal", CDecimal); (lit "integer", CDecimal); (lit "int", CDecimal); (lit "unsignedInt", CDecimal);
    (lit "unsignedShort", CDecimal); (lit "unsignedLong", CDecimal); (lit "unsignedByte", CDecimal); (lit "short", CDecimal);
    (lit "long", CDecimal); (lit "byte", CDecimal); (lit "nonNegativeInteger", CDecimal); (lit "positiveInteger", CDecimal);
    (lit "nonPositiveInteger", CDecimal); (lit "negativeInteger", CDecimal); (lit "float", CFloat); (lit "number", CFloat);
    (lit "double", CFloat); (lit "normalizedString", CString); (lit "QName", CString); (lit "gDay", CString);
    (lit "gMonth", CString); (lit "gMonthDay", CString); (lit "gYear", CString); (lit "gYearMonth", CString);
    (lit "xml", CString); (lit "html", CString); (lit "json", CString) ].
(** class attribute minmax: datatypes.py:62, 304, 513, 823 *)
Definition minmax (c : dclass) : bool := match c with CDatetime | CDecimal | CFloat => true | _ => false end.
(** metadata.py:579-587 *)
Definition has_order (c : dclass) : bool := match c with CDatetime | CDecimal | CFloat | CDuration => true | _ => false end.
(** metadata.py:589-596 *)
Definition has_length (c : dclass) : bool := match c with CString | CBase64 | CHex => true | _ => false end.

(** What validation needs of Python values: bool(v), len(v) (None = TypeError), and the comparison
    operators: v cmp w is Ok (Some c), or Ok None when unordered (float nan: every operator gives False),
    or an exception (TypeError, decimal.InvalidOperation) *)
Record vops (V : Type) := { v_truthy : V -> bool; v_len : V -> option nat; v_cmp : V -> V -> res (option comparison) }.
Arguments v_truthy {V}. Arguments v_len {V}. Arguments v_cmp {V}.

Record facets (V : Type) := {
  fc_length : option Z; fc_minLength : option Z; fc_maxLength : option Z;
  fc_minimum : option V; fc_maximum : option V;
  fc_minInclusive : option V; fc_maxInclusive : option V;
  fc_minExclusive : option V; fc_maxExclusive : option V }.
Arguments fc_length {V}. Arguments fc_minLength {V}. Arguments fc_maxLength {V}. Arguments fc_minimum {V}. Arguments fc_maximum {V}.
Arguments fc_minInclusive {V}. Arguments fc_maxInclusive {V}. Arguments fc_minExclusive {V}. Arguments fc_maxExclusive {V}.
Definition no_facets {V} : facets V :=
  {| fc_length := None; fc_minLength := None; fc_maxLength := None; fc_minimum := None; fc_maximum := None;
     fc_minInclusive := None; fc_maxInclusive := None; fc_minExclusive := None; fc_maxExclusive := None |}.

Section Datatype.
Context {V : Type} (ops : vops V).
(** v < w, v <= w, v > w, v >= w *)
Definition opr (f : comparison -> bool) (v w : V) : res bool :=
  r <- v_cmp ops v w ;; Ok (match r with Some c => f c | None => false end).
Definition py_lt := opr (fun c => match c with Lt => true | _ => false end).
Definition py_le := opr (fun c => match c with Gt => false | _ => true end).
Definition py_gt := opr (fun c => match c with Gt => true | _ => false end).
Definition py_ge := opr (fun c => match c with Lt => false | _ => true end).

(** "if self.x is not None and v OP self.x: raise ValueError" *)
Definition check (op : V -> V -> res bool) (v : V) (bound : option V) : res unit :=
  match bound with
  | Some b => r <- op v b ;; if (r : bool) then Err ValueError else Ok tt
  | None => Ok tt
  end.
(** metadata.py:651-660 *)
Definition check_len (F : facets V) (v : V) : res unit :=
  match (if v_truthy ops v then v_len ops v else Some 0%nat) with
  | None => Ok tt
  | Some n =>
      let l := Z.of_nat n in
      let bad (o : option Z) (p : Z -> bool) := match o with Some k => p k | None => false end in
      if bad (fc_length F) (fun k => negb (Z.eqb l k)) then Err ValueError
      else if bad (fc_minLength F) (fun k => Z.ltb l k) then Err ValueError
      else if bad (fc_maxLength F) (fun k => Z.ltb k l) then Err ValueError
      else Ok tt
  end.
(** metadata.py:648-674; the value None is returned as is by the caller *)
Definition validate (c : dclass) (F : facets V) (v : V) : res V :=
  _ <- check_len F v ;;
  if minmax c then
    _ <- check py_lt v (fc_minimum F) ;;
    _ <- check py_lt v (fc_minInclusive F) ;;
    _ <- check py_le v (fc_minExclusive F) ;;
    _ <- check py_gt v (fc_maximum F) ;;
    _ <- check py_gt v (fc_maxInclusive F) ;;
    _ <- check py_ge v (fc_maxExclusive F) ;;
    Ok v
  else Ok v.

(** ** Datatype.__attrs_post_init__: metadata.py:557-622 *)
(** metadata.py:564-574 *)
Definition lengths_ok (F : facets V) : bool :=
  let both (a b : option Z) (p : Z -> Z -> bool) := match a, b with Some x, Some y => p x y | _, _ => false end in
  negb (both (fc_length F) (fc_minLength F) Z.ltb
        || both (fc_maxLength F) (fc_length F) Z.ltb
        || both (fc_maxLength F) (fc_minLength F) Z.ltb).
Definition given (o : option V) : option V := match o with Some v => if v_truthy ops v then Some v else None | None => None end.
Definition given_z (o : option Z) : bool := match o with Some z => negb (Z.eqb z 0) | None => false end.
Definition is_some {A} (o : option A) : bool := match o with Some _ => true | None => false end.
Definition both_ (a b : option V) (op : V -> V -> res bool) : res bool :=
  match given a, given b with Some x, Some y => op x y | _, _ => Ok false end.
Definition or_ (a b : res bool) : res bool := x <- a ;; if (x : bool) then Ok true else b.

(** Inputs: the facets with unparsed bounds ([parse]: Datatype.parse), the derived description
    ([derived] is its 'pattern', or the exception it raises), [id_builtin] when '@id' is the URL of a built-in datatype.
    Result: the facets, and whether 'format' is kept. *)
Definition pattern_chars : pystr := lit "#0.,;%" ++ [8240] ++ lit "E-+".
Definition post_init {R} (parse : R -> res V) (c : dclass) (derived : res (option pystr)) (id_builtin : bool) (raw : facets R)
  : res (facets V * bool) :=
  let p (o : option R) : res (option V) := match o with Some r => v <- parse r ;; Ok (Some v) | None => Ok None end in
  mn <- p (fc_minimum raw) ;; mx <- p (fc_maximum raw) ;;
  mni <- p (fc_minInclusive raw) ;; mxi <- p (fc_maxInclusive raw) ;;
  mne <- p (fc_minExclusive raw) ;; mxe <- p (fc_maxExclusive raw) ;;
  let F := {| fc_length := fc_length raw; fc_minLength := fc_minLength raw; fc_maxLength := fc_maxLength raw;
              fc_minimum := mn; fc_maximum := mx; fc_minInclusive := mni; fc_maxInclusive := mxi;
              fc_minExclusive := mne; fc_maxExclusive := mxe |} in
  if negb (lengths_ok F) then Err ValueError else
  pat <- derived ;;
  if negb (has_order c) && existsb (fun o => is_some (given o)) [mn; mx; mne; mxe; mni; mxi] then Err ValueError else
  if negb (has_length c) && existsb given_z [fc_length raw; fc_minLength raw; fc_maxLength raw] then Err ValueError else
  if (is_some (given mni) && is_some (given mne)) || (is_some (given mxi) && is_some (given mxe)) then Err ValueError else
  b <- or_ (both_ mxe mni py_le) (both_ mxi mni py_lt) ;;
  if (b : bool) then Err ValueError else
  b' <- or_ (both_ mxe mne py_le) (both_ mxi mne py_le) ;;
  if (b' : bool) then Err ValueError else
  if id_builtin then Err ValueError else
  Ok (F, negb (dclass_eqb c CDecimal && match pat with Some s => negb (forallb (fun x => char_mem x pattern_chars) s) | None => false end)).

(** Datatype.read: metadata.py:676-677, for a string *)
Definition dt_read {R} (parse : R -> res V) (c : dclass) (F : facets V) (r : R) : res V :=
  v <- parse r ;; validate c F v.
End Datatype.

(** ** Values of the modelled datatypes *)
Inductive value := VStr (s : pystr) | VBytes (b : list N) | VBool (b : bool) | VInt (z : Z) | VDec (d : dec) | VDate (x : dt).
(** comparison of Decimals, datetimes (stdlib) *)
Definition dec_cmp (a b : dec) : res (option comparison) :=
  match a, b with
  | NaN _ _ _, _ | _, NaN _ _ _ => Err DecimalInvalid
  | Inf true, Inf true | Inf false, Inf false => Ok (Some Eq)
  | Inf true, _ | _, Inf false => Ok (Some Lt)
  | Inf false, _ | _, Inf true => Ok (Some Gt)
  | Fin n1 c1 e1, Fin n2 c2 e2 =>
      let m := Z.min e1 e2 in
      let v (n : bool) c e := ((if n then -1 else 1) * Z.of_N c * 10 ^ (e - m))%Z in
      Ok (Some (Z.compare (v n1 c1 e1) (v n2 c2 e2)))
  end.
Definition lex (l : list comparison) : comparison := fold_right (fun c r => match c with Eq => r | _ => c end) Eq l.
Definition dt_cmp (a b : dt) : comparison :=
  lex [y a ?= y b; mo a ?= mo b; d a ?= d b; h a ?= h b; mi a ?= mi b; s a ?= s b; us a ?= us b].
Definition value_ops : vops value :=
  {| v_truthy := fun v => match v with
       | VStr t => negb (match t with [] => true | _ => false end)
       | VBytes b => negb (match b with [] => true | _ => false end)
       | VBool b => b
       | VInt z => negb (Z.eqb z 0)
       | VDec (Fin _ c _) => negb (c =? 0)
       | VDec _ | VDate _ => true
       end;
     v_len := fun v => match v with VStr t => Some (length t) | VBytes b => Some (length b) | _ => None end;
     v_cmp := fun v w => match v, w with
       | VInt a, VInt b => Ok (Some (Z.compare a b))
       | VDec a, VDec b => dec_cmp a b
       | VDate a, VDate b => Ok (Some (dt_cmp a b))
       | _, _ => Err TypeError  (* strings etc.: bounds are not used with them *)
       end |}.
