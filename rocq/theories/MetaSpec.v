(** What C48 says, in terms of JSON values only. *)
From Verif Require Import PyStr Dsv Json Meta.
From Coq Require Import Permutation.

(** JSON objects have distinct keys, at every level *)
Fixpoint wf_json (v : json) : Prop :=
  match v with
  | JObj kvs => NoDup (map fst kvs) /\ (fix all (l : list (pystr * json)) : Prop :=
                                          match l with [] => True | (_, x) :: r => wf_json x /\ all r end) kvs
  | JList l => (fix all (l : list json) : Prop := match l with [] => True | x :: r => wf_json x /\ all r end) l
  | _ => True
  end.

(** [o] is [v] or occurs in it, other than as an '@id' or '@language' *)
Inductive inside (o : json) : json -> Prop :=
| in_here : inside o o
| in_list l x : In x l -> inside o x -> inside o (JList l)
| in_obj kvs k x : In (k, x) kvs -> k <> lit "@id" -> k <> lit "@language" -> inside o x -> inside o (JObj kvs).

(** a term of the csvw context, a name with one of its prefixes, or an absolute URL *)
Definition type_known (s : pystr) : Prop :=
  (exists r, s = lit "http://" ++ r) \/ (exists r, s = lit "https://" ++ r) \/ In s NAMESPACES \/
  (exists ns r, In ns NAMESPACES /\ s = ns ++ lit ":" ++ r) \/ In s CSVW_TERMS.

(** the rules for one object of a common property's value *)
Record object_ok (kvs : list (pystr * json)) : Prop := {
  ok_keys : forall k, In (lit "@" ++ k) (map fst kvs) -> In k [lit "id"; lit "language"; lit "type"; lit "value"];
  ok_value : forall v, In (lit "@value", v) kvs -> kvs = [(lit "@value", v)] \/
      ((exists k x, (k = lit "@language" \/ k = lit "@type") /\ Permutation kvs [(lit "@value", v); (k, x)]) /\
       ((exists s, v = JStr s) \/ (exists b, v = JBool b) \/ (exists z, v = JInt z)));
  ok_language : In (lit "@language") (map fst kvs) -> In (lit "@value") (map fst kvs);
  ok_id : forall r, ~ In (lit "@id", JStr (lit "_" ++ r)) kvs;
  ok_type : forall v, In (lit "@type", v) kvs ->
      (exists l, v = JList l) \/ (exists o, v = JObj o) \/
      (exists s, v = JStr s /\ type_known s /\ forall r, s <> lit "_:" ++ r);
}.
Definition common_ok (v : json) : Prop := forall kvs, inside (JObj kvs) v -> object_ok kvs.

Section Clean.
Variable tag_ok : pystr -> bool.
(** a string that is a language tag *)
Definition is_language (v : json) : Prop := exists s, v = JStr s /\ tag_ok s = true.
(** nothing in [v] needs correction *)
Definition no_defect (v : json) : Prop :=
  forall kvs, inside (JObj kvs) v ->
    (forall x, In (lit "@id", x) kvs -> exists s, x = JStr s) /\
    (forall x, In (lit "@language", x) kvs -> is_language x).

(** the corrected value: an '@id' that is not a string becomes None, an '@language' that is no language
    tag is removed; everything else is as it was *)
Fixpoint clean (v : json) : json :=
  match v with
  | JObj kvs =>
      JObj ((fix go (kvs : list (pystr * json)) : list (pystr * json) :=
               match kvs with
               | [] => []
               | (k, x) :: rest =>
                   if str_eq_dec k (lit "@id") then (k, match x with JStr s => JStr s | _ => JNull end) :: go rest
                   else if str_eq_dec k (lit "@language") then
                     match x with JStr s => if tag_ok s then (k, x) :: go rest else go rest | _ => go rest end
                   else (k, clean x) :: go rest
               end) kvs)
  | JList l => JList (map clean l)
  | _ => v
  end.
End Clean.

(** the four fates of a key *)
Inductive fate := FAt | FCommon | FAttr | FDropped.
Definition fate_eq_dec (a b : fate) : {a = b} + {a <> b}.
Proof. decide equality. Defined.
(** '@...' ; else if it contains ':' ; else a known attribute (or any name, if not strict) ; else dropped *)
Definition fate_of (fields : list pystr) (strict : bool) (k : pystr) : fate :=
  if match k with c :: _ => c =? 64 | [] => false end then FAt
  else if in_dec N.eq_dec 58 k then FCommon
  else if strict then if in_dec str_eq_dec k fields then FAttr else FDropped
  else FAttr.
Definition with_fate (fields : list pystr) (strict : bool) (f : fate) (kvs : list (pystr * json)) :=
  filter (fun kv => if fate_eq_dec (fate_of fields strict (fst kv)) f then true else false) kvs.
(** the keys reported as invalid *)
Definition reported (ws : list mwarn) : list pystr :=
  flat_map (fun w => match w with WProperty k => [k] | _ => [] end) ws.

(** the objects that are accepted *)
Record accepted (fields : list pystr) (type_name : pystr) (strict : bool) (kvs : list (pystr * json)) : Prop := {
  acc_id : forall r, ~ In (lit "@id", JStr (lit "_" ++ r)) kvs;
  acc_type : forall v, In (lit "@type", v) kvs -> v = JStr type_name;
  acc_common : forall k v, In (k, v) kvs -> fate_of fields strict k = FCommon -> common_ok v;
  acc_attr : forall k v, In (k, v) kvs -> fate_of fields strict k = FAttr -> k <> lit "common_props" /\ k <> lit "at_props";
}.

Section Expected.
Variable tag_ok : pystr -> bool.
Variables (fields : list pystr) (strict : bool).
(** the three dictionaries expected for an object: '@x' is filed under 'x' (an '@id' that is not a string
    becoming None), common properties are cleaned, attributes are passed on as they are; the order of the
    keys is kept *)
Definition expected_at (kvs : list (pystr * json)) : list (pystr * json) :=
  map (fun kv => (tl (fst kv), if str_eq_dec (fst kv) (lit "@id") then match snd kv with JStr s => JStr s | _ => JNull end
                               else snd kv)) (with_fate fields strict FAt kvs).
Definition expected_common (kvs : list (pystr * json)) : list (pystr * json) :=
  map (fun kv => (fst kv, clean tag_ok (snd kv))) (with_fate fields strict FCommon kvs).
Definition expected_attrs (kvs : list (pystr * json)) : list (pystr * json) := with_fate fields strict FAttr kvs.
Definition expected_dropped (kvs : list (pystr * json)) : list pystr := map fst (with_fate fields strict FDropped kvs).
End Expected.
