(** Specifications for jsonld.py (C44, C45, C49). *)
From Coq Require Import Permutation.
From Verif Require Import PyStr Dsv Json Jsonld.

(** ** C44 *)
(** The values within a value, at any depth *)
Inductive within : json -> json -> Prop :=
| within_refl j : within j j
| within_list x l j : In x l -> within j x -> within j (JList l)
| within_obj k x kvs j : In (k, x) kvs -> within j x -> within j (JObj kvs).
(** '@value' is a string, a list (other than ["@id"]) or an object *)
Definition value_usable (v : json) : Prop :=
  match v with JStr _ | JObj _ => True | JList l => l <> [JStr (lit "@id")] | _ => False end.
Definition usable (j : json) : Prop := forall kvs v, within (JObj kvs) j -> dget str_eqb kvs (lit "@value") = Some v -> value_usable v.
(** objects as json.load gives them: distinct keys; and 'rdf:type' does not occur together with '@type' *)
Definition keys_ok (j : json) : Prop := forall kvs, within (JObj kvs) j -> NoDup (map fst kvs) /\ ~ (In (lit "rdf:type") (map fst kvs) /\ In (lit "@type") (map fst kvs)).
(** '@value' and '@id' are strings *)
Definition plain_ld (j : json) : Prop := forall kvs k v, within (JObj kvs) j -> k = lit "@value" \/ k = lit "@id" -> dget str_eqb kvs k = Some v -> exists s, v = JStr s.

(** a value and its simplification: wrapped values and bare references are replaced, 'rdf:type' is renamed, everything else is kept, in order; with [fl] lists of
    one item are replaced by the item *)
Inductive simplifies (fl : bool) : json -> json -> Prop :=
| simp_atom j : match j with JList _ | JObj _ => False | _ => True end -> simplifies fl j j
| simp_value kvs s : dget str_eqb kvs (lit "@value") = Some (JStr s) -> simplifies fl (JObj kvs) (JStr s)
| simp_id s : simplifies fl (JObj [(lit "@id", JStr s)]) (JStr s)
| simp_obj kvs kvs' : dget str_eqb kvs (lit "@value") = None -> (forall x, kvs <> [(lit "@id", x)]) ->
    Forall2 (fun kv kv' => fst kv' = (if str_eqb (fst kv) (lit "rdf:type") then lit "@type" else fst kv) /\ simplifies fl (snd kv) (snd kv')) kvs kvs' ->
    simplifies fl (JObj kvs) (JObj kvs')
| simp_single x y : fl = true -> simplifies fl x y -> simplifies fl (JList [x]) y
| simp_list l l' : (fl = true -> length l <> 1%nat) -> Forall2 (simplifies fl) l l' -> simplifies fl (JList l) (JList l').
(** nothing is left to simplify *)
Definition simple (fl : bool) (j : json) : Prop :=
  (forall kvs, within (JObj kvs) j -> dget str_eqb kvs (lit "@value") = None /\ dget str_eqb kvs (lit "rdf:type") = None /\ forall x, kvs <> [(lit "@id", x)]) /\
  (fl = true -> forall x, ~ within (JList [x]) j).

(** ** C45 *)
Section Group.
Context {V : Type}.
(** the values given for a property; the lists among them as one list, in the place of the first *)
Definition given (p : pystr) (ts : list (triple V)) : list (tree V) := map t_val (filter (fun t => str_eqb (t_prop t) p) ts).
Definition items_in (vs : list (tree V)) : list (tree V) := flat_map (fun v => match v with Many l => l | One _ => [] end) vs.
Fixpoint one_list (vs : list (tree V)) : list (tree V) :=
  match vs with
  | [] => []
  | One v :: r => One v :: one_list r
  | Many l :: r => Many (l ++ items_in r) :: filter (fun v => match v with One _ => true | _ => false end) r
  end.
(** the value of the property: none, the one value, or the list of the values *)
Definition combined (vs : list (tree V)) : option (tree V) :=
  match one_list vs with
  | [] => None
  | [v] => Some v
  | Many l :: r => Some (Many (l ++ r))
  | v :: r => Some (Many (v :: r))
  end.
(** lists given for the same property are all given for the row, or all for other subjects *)
Definition lists_apart (ts : list (triple V)) : Prop :=
  forall t t' l l', In t ts -> In t' ts -> t_prop t = t_prop t' -> t_val t = Many l -> t_val t' = Many l' -> (t_about t = None <-> t_about t' = None).
(** the triples of the row, and those of other subjects *)
Definition of_row (ts : list (triple V)) : list (triple V) := filter (fun t => match t_about t with None => true | _ => false end) ts.
Definition of_others (ts : list (triple V)) : list (triple V) := filter (fun t => match t_about t with None => false | _ => true end) ts.
(** the first occurrences *)
Fixpoint firsts (l : list pystr) : list pystr := match l with [] => [] | x :: r => x :: filter (fun y => negb (str_eqb x y)) (firsts r) end.
(** the object of a row: its properties in the order of their first occurrence, each with its combined value; the last '@id' counts *)
Definition last_of {A} (l : list A) : option A := match rev l with v :: _ => Some v | [] => None end.
Record row_object (ts : list (triple V)) (o : list (pystr * tree V)) : Prop := {
  ro_keys : map fst o = firsts (map t_prop ts);
  ro_values : forall p, p <> lit "@id" -> dget str_eqb o p = combined (given p ts);
  ro_id : dget str_eqb o (lit "@id") = last_of (one_list (given (lit "@id") ts));
}.
(** a list of values with those of the row put first, the others in their order *)
Definition first_those {A} (f : A -> bool) (l : list A) : list A := filter f l ++ filter (fun x => negb (f x)) l.
End Group.

(** ** C49 *)
(** the subjects described in a value: objects with an '@id' and something else *)
Fixpoint nodes (j : json) : list pystr :=
  match j with
  | JObj kvs => (match id_of kvs, kvs with Some i, _ :: _ :: _ => [i] | _, _ => [] end) ++ flat_map (fun kv => nodes (snd kv)) kvs
  | JList l => flat_map nodes l
  | _ => []
  end.
(** Data as rdflib serializes it: items have distinct '@id's and some property; the values of properties are lists, of references ({"@id": r}) and of
    objects that contain neither '@id's nor other objects. *)
Definition is_ref (j : json) : Prop := exists r, r <> [] /\ j = JObj [(lit "@id", JStr r)].
Definition is_literal (j : json) : Prop := exists kvs, j = JObj kvs /\ dget str_eqb kvs (lit "@id") = None /\ forall kv, In kv kvs -> match snd kv with JList _ | JObj _ => False | _ => True end.
Record flat (data : list jobj) : Prop := {
  fl_ids : exists ids, map id_of data = map Some ids /\ NoDup ids;
  fl_props : forall o, In o data -> (length o >= 2)%nat /\ NoDup (map fst o);
  fl_values : forall o k v, In o data -> In (k, v) o -> k <> lit "@id" -> exists l, v = JList l /\ Forall (fun x => is_ref x \/ is_literal x) l;
}.
(** the '@id's an item refers to *)
Definition refers_to (o : jobj) : list pystr :=
  flat_map (fun kv => match snd kv with
                      | JList l => flat_map (fun x => match x with JObj [(k, JStr r)] => if str_eqb k (lit "@id") then [r] else [] | _ => [] end) l
                      | _ => []
                      end) o.
(** [i] is referred to once, and is an item *)
Definition single (data : list jobj) (i : pystr) : Prop :=
  length (filter (str_eqb i) (flat_map refers_to data)) = 1%nat /\ exists o, In o data /\ id_of o = Some i.
(** items that are not referred to (or not just once), and what these contain *)
Inductive reached (data : list jobj) : pystr -> Prop :=
| reached_root o i : In o data -> id_of o = Some i -> ~ single data i -> reached data i
| reached_step o j i : In o data -> id_of o = Some j -> reached data j -> In i (refers_to o) -> single data i -> reached data i.
(** an item, and the object made of it: all properties and values are kept, in order, but in place of the only reference to an item is the object made of that item *)
Inductive framed (data : list jobj) : jobj -> jobj -> Prop :=
| framed_item o o' : Forall2 (fun kv kv' => fst kv' = fst kv /\ ((fst kv = lit "@id" /\ snd kv' = snd kv) \/
    exists l l', snd kv = JList l /\ snd kv' = JList l' /\ Forall2 (framed_value data) l l')) o o' -> framed data o o'
with framed_value (data : list jobj) : json -> json -> Prop :=
| framed_literal x : is_literal x -> framed_value data x x
| framed_ref r : ~ single data r -> framed_value data (JObj [(lit "@id", JStr r)]) (JObj [(lit "@id", JStr r)])
| framed_inlined r o o' w : single data r -> In o data -> id_of o = Some r -> framed data o o' -> Permutation w o' -> framed_value data (JObj [(lit "@id", JStr r)]) (JObj w).
