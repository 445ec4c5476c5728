(** What C11 and C12 say, without reference to converters, validators or caches. *)
From Verif Require Import PyStr Dsv Json Dialects.

Definition dialect_names : list pystr :=
  [lit "encoding"; lit "lineTerminators"; lit "quoteChar"; lit "doubleQuote"; lit "skipRows";
   lit "commentPrefix"; lit "header"; lit "headerRowCount"; lit "delimiter"; lit "skipColumns";
   lit "skipBlankRows"; lit "skipInitialSpace"; lit "trim"].

Definition is_bool (v : json) : Prop := exists b, v = JBool b.
Definition is_count (v : json) : Prop := exists z, v = JInt z /\ (0 <= z)%Z.
Definition is_str (v : json) : Prop := exists s, v = JStr s.
Definition is_listv (v : json) : Prop := exists l, v = JList l.

(** the values the CSVW dialect properties may have; an encoding must be known to Python *)
Definition attr_ok (codec : pystr -> codec_result) (n : pystr) (v : json) : Prop :=
  (n = lit "encoding" /\ exists s, v = JStr s
     /\ codec (if str_eqb s (lit "UTF-8-BOM") then lit "utf-8-sig" else s) = CKnown)
  \/ (n = lit "lineTerminators" /\ is_listv v)
  \/ (n = lit "quoteChar" /\ (v = JNull \/ is_str v))
  \/ (n = lit "doubleQuote" /\ is_bool v)
  \/ (n = lit "skipRows" /\ is_count v)
  \/ (n = lit "commentPrefix" /\ (v = JNull \/ is_str v))
  \/ (n = lit "header" /\ is_bool v)
  \/ (n = lit "headerRowCount" /\ is_count v)
  \/ (n = lit "delimiter" /\ is_str v)
  \/ (n = lit "skipColumns" /\ is_count v)
  \/ (n = lit "skipBlankRows" /\ is_bool v)
  \/ (n = lit "skipInitialSpace" /\ is_bool v)
  \/ (n = lit "trim" /\ exists s, v = JStr s /\ (s = lit "true" \/ s = lit "false" \/ s = lit "start" \/ s = lit "end")).

Definition dialect_default (n : pystr) : json :=
  if str_eqb n (lit "encoding") then JStr (lit "utf-8")
  else if str_eqb n (lit "lineTerminators") then JList [JStr [CR; LF]; JStr [LF]]
  else if str_eqb n (lit "quoteChar") then JStr [34]
  else if str_eqb n (lit "doubleQuote") || str_eqb n (lit "header") then JBool true
  else if str_eqb n (lit "skipRows") || str_eqb n (lit "skipColumns") then JInt 0
  else if str_eqb n (lit "commentPrefix") then JStr (lit "#")
  else if str_eqb n (lit "headerRowCount") then JInt 1
  else if str_eqb n (lit "delimiter") then JStr (lit ",")
  else if str_eqb n (lit "trim") then JStr (lit "false")
  else JBool false.

(** ** What the current attribute values alone determine (C12) *)
(** the csv parameters of a dialect with these attributes *)
Definition params_of (a : attrs) : res params :=
  let get n := getdef (dget str_eqb a n) JNull in
  let lts := match get (lit "lineTerminators") with JStr s => JList [JStr s] | v => v end in
  lt <- item0 lts ;;
  Ok {| p_delimiter := get (lit "delimiter"); p_doublequote := get (lit "doubleQuote");
        p_escapechar := if truthy (get (lit "doubleQuote")) then JNull
                        else match get (lit "quoteChar") with JNull => JNull | _ => JStr [92] end;
        p_lineterminator := lt; p_quotechar := get (lit "quoteChar");
        p_skipinitialspace := get (lit "skipInitialSpace") |}.

(** attributes cached properties depend on *)
Definition cached_inputs : list pystr :=
  [lit "quoteChar"; lit "doubleQuote"; lit "lineTerminators"; lit "trim"].
Definition is_set (op : dop) : Prop := exists n v, op = OpSet n v.
Definition sets_cached_input (op : dop) : Prop := exists n v, op = OpSet n v /\ In n cached_inputs.

(** the trimming such attributes ask for *)
Definition trimming_of (a : attrs) : res trimmode :=
  match getdef (dget str_eqb a (lit "trim")) JNull with
  | JStr s => if str_eqb s (lit "true") then Ok TrimTrue
              else if str_eqb s (lit "false") then Ok TrimFalse
              else if str_eqb s (lit "start") then Ok TrimStart
              else if str_eqb s (lit "end") then Ok TrimEnd else Err KeyError
  | JList _ | JObj _ => Err TypeError
  | _ => Err KeyError
  end.
