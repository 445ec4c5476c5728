(** jsonld.py: simplification of JSON-LD, framing, and grouping of triples. *)
From Verif Require Import PyStr Dsv Json.

(** ** to_json: jsonld.py:114-131 *)
(** jsonld.py:125: '@type' if k == 'rdf:type' else k *)
Definition rename (k : pystr) : pystr := if str_eqb k (lit "rdf:type") then lit "@type" else k.
(** isinstance(x, str) and x == '@id' *)
Definition is_id (j : json) : bool := match j with JStr s => str_eqb s (lit "@id") | _ => false end.

Section ToJson.
(** flatten_list *)
Variable fl : bool.
(** The three parts of the function, for an object and all that is in it: [t_rest] is :123-131, [t_body] is :121-131 (after the '@value' has been taken out),
    [t_full] is the whole function. *)
Record parts3 := { t_rest : res json; t_body : res json; t_full : res json }.
(** :123-126 the dict comprehension; :127-130 lists *)
Fixpoint conv (j : json) : parts3 :=
  match j with
  | JObj kvs =>
      let subs := map (fun kv => (fst kv, conv (snd kv))) kvs in
      let rest := items <- mapM (fun ks => v <- t_full (snd ks) ;; Ok (rename (fst ks), v)) subs ;; Ok (JObj (dset_all str_eqb [] items)) in
      (* :121-122 len(obj) == 1 and '@id' in obj *)
      let body := match subs with
                  | [(k, sub)] => if str_eqb k (lit "@id") then t_rest sub else rest
                  | _ => rest
                  end in
      {| t_rest := rest; t_body := body;
         (* :119-120 '@value' in obj *)
         t_full := match dget str_eqb subs (lit "@value") with Some sub => t_body sub | None => body end |}
  | JList l =>
      let subs := map conv l in
      let rest := match subs with
                  | [sub] => if fl then t_full sub else (v <- t_full sub ;; Ok (JList [v]))
                  | _ => items <- mapM t_full subs ;; Ok (JList items)
                  end in
      (* len(obj) == 1 and '@id' in obj: a list is no mapping *)
      {| t_rest := rest; t_body := match l with [x] => if is_id x then Err TypeError else rest | _ => rest end; t_full := rest |}
  | JStr _ => {| t_rest := Ok j; t_body := Ok j; t_full := Ok j |}
  (* len() of None, a bool or a number *)
  | _ => {| t_rest := Ok j; t_body := Err TypeError; t_full := Ok j |}
  end.
Definition to_json (j : json) : res json := t_full (conv j).
End ToJson.

(** ** Triples: jsonld.py:53-88 *)
(** Values of cells (V: Python objects other than lists), and lists of them *)
Inductive tree (V : Type) := One (v : V) | Many (l : list (tree V)).
Arguments One {V}. Arguments Many {V}.
Record triple (V : Type) := { t_about : option pystr; t_prop : pystr; t_val : tree V }.
Arguments t_about {V}. Arguments t_prop {V}. Arguments t_val {V}.

Section Group.
Context {V : Type}.
Definition is_list (v : tree V) : bool := match v with Many _ => true | _ => false end.
(** jsonld.py:138-148: lists of the same property (of whatever subject) become one list.  [extend]: the first such triple gets the items. *)
Fixpoint extend (p : pystr) (l : list (tree V)) (ts : list (triple V)) : option (list (triple V)) :=
  match ts with
  | [] => None
  | t :: r =>
      match t_val t with
      | Many m => if str_eqb (t_prop t) p then Some ({| t_about := t_about t; t_prop := t_prop t; t_val := Many (m ++ l) |} :: r)
                  else option_map (cons t) (extend p l r)
      | One _ => option_map (cons t) (extend p l r)
      end
  end.
Definition merge_step (merged : list (triple V)) (t : triple V) : list (triple V) :=
  match t_val t with
  | Many l => match extend (t_prop t) l merged with Some m => m | None => merged ++ [t] end
  | One _ => merged ++ [t]
  end.
Definition merge (ts : list (triple V)) : list (triple V) := fold_left merge_step ts [].

(** jsonld.py:150-166: the properties of the row, and the triples with a subject *)
Definition object : Type := list (pystr * tree V).
Definition no_subject (t : triple V) : bool := match t_about t with None | Some [] => true | _ => false end.
Definition add_value (grouped : object) (p : pystr) (v : tree V) : object :=
  match dget str_eqb grouped p with
  | None => dset str_eqb grouped p v
  | Some (Many l) => dset str_eqb grouped p (Many (l ++ [v]))
  | Some (One x) => dset str_eqb grouped p (Many [One x; v])
  end.
Definition group_step (acc : object * list (triple V)) (t : triple V) : object * list (triple V) :=
  let (grouped, others) := acc in
  if match t_about t with None => str_eqb (t_prop t) (lit "@id") | _ => false end then (dset str_eqb grouped (t_prop t) (t_val t), others)
  else if no_subject t then (add_value grouped (t_prop t) (t_val t), others)
  else (grouped, others ++ [t]).
Definition group (ts : list (triple V)) : object * list (triple V) := fold_left group_step (merge ts) ([], []).

(** ** frame: jsonld.py:91-111, for items as rdflib serializes them: objects whose '@id' is a string *)
Definition jobj : Type := list (pystr * json).
(** :99-100, :105-106 *)
Definition id_of (o : jobj) : option pystr := match dget str_eqb o (lit "@id") with Some (JStr (c :: s)) => Some (c :: s) | _ => None end.
(** :103 [vs] if not isinstance(vs, list) else vs *)
Definition elements (v : json) : list json := match v with JList l => l | _ => [v] end.
(** :102-107 the '@id's of the objects among the values of an item *)
Definition ref_of (v : json) : list pystr := match v with JObj o => match id_of o with Some r => [r] | None => [] end | _ => [] end.
Definition refs_of (o : jobj) : list pystr := flat_map (fun kv => flat_map ref_of (elements (snd kv))) o.
(** :97-101 *)
Definition items_of (data : list jobj) : list (pystr * jobj) :=
  dset_all str_eqb [] (flat_map (fun o => match id_of o with Some i => [(i, o)] | None => [] end) data).
Definition count_str (s : pystr) (l : list pystr) : nat := length (filter (str_eqb s) l).
Section Frame.
Variable data : list jobj.
(** :108-109: there is one reference, and it is to an item.  (The object referring to an item changes only once, and the items themselves are not
    changed, so the order in which the references are treated does not matter.) *)
Definition inlined (r : pystr) : bool :=
  Nat.eqb (count_str r (flat_map refs_of data)) 1 && match dget str_eqb (items_of data) r with Some _ => true | None => false end.
(** :110 ref.update(item): what the referring object looks like in the end, where the values of the item are shared, and may be updated themselves.
    [n] bounds the depth: the number of items is enough (FrameProofs.v). *)
Fixpoint expand (n : nat) (o : jobj) : jobj :=
  match n with
  | 0%nat => o
  | S n' =>
      let ex v := match v with
                  | JObj w => match id_of w with
                              | Some r => if inlined r then match dget str_eqb (items_of data) r with
                                                            | Some i => JObj (dset_all str_eqb w (expand n' i))
                                                            | None => v
                                                            end
                                          else v
                              | None => v
                              end
                  | _ => v
                  end in
      map (fun kv => (fst kv, match snd kv with JList l => JList (map ex l) | v => ex v end)) o
  end.
(** :111 *)
Definition frame : list jobj := map (fun io => expand (length data) (snd io)) (filter (fun io => negb (inlined (fst io))) (items_of data)).
End Frame.

(** ** group_triples: jsonld.py:134-189 *)
(** a property of a result: from the row itself, or from the graph *)
Inductive oval := Raw (v : tree V) | Js (j : json).
(** sorted(..., key=...): stable *)
Fixpoint insert_by (x : Z * jobj) (l : list (Z * jobj)) : list (Z * jobj) :=
  match l with
  | [] => [x]
  | y :: r => if Z.ltb (fst x) (fst y) then x :: l else y :: insert_by x r
  end.
Definition sort_by (l : list (Z * jobj)) : list (Z * jobj) := fold_left (fun acc x => insert_by x acc) l [].
(** json.loads(g.serialize(format='json-ld')) for the graph of the triples (rdflib), or an exception *)
Variable graph : list (triple V) -> res (list jobj).
(** a value as str, if it is one *)
Variable as_str : V -> option pystr.
(** jsonld.py:182 o[1].get('@id') == grouped.get('@id') *)
Definition same_id (j : option json) (v : option (tree V)) : bool :=
  match j, v with
  | None, None => true
  | Some (JStr s), Some (One x) => match as_str x with Some s' => str_eqb s s' | None => false end
  | _, _ => false
  end.
(** :179 *)
Definition as_object (j : json) : res jobj := match j with JObj o => Ok o | _ => Err AttributeError end.
Fixpoint enumerate {A} (n : Z) (l : list A) : list (Z * A) := match l with [] => [] | x :: r => (n, x) :: enumerate (n + 1) r end.
(** :177-182 *)
Definition described (grouped : object) (items : list jobj) : res (list jobj) :=
  js <- mapM (fun o => to_json true (JObj o)) (frame items) ;;
  objs <- mapM as_object js ;;
  Ok (map snd (sort_by (map (fun io => ((if same_id (dget str_eqb (snd io) (lit "@id")) (dget str_eqb grouped (lit "@id")) then -1 else fst io)%Z, snd io)) (enumerate 0 objs)))).
(** the subject of a row, for URIRef *)
Definition id_str (v : tree V) : option pystr := match v with One x => as_str x | Many _ => None end.
Definition group_triples (ts : list (triple V)) : res (list (list (pystr * oval))) :=
  let (grouped, others) := group ts in
  let raw := map (fun kv => (fst kv, Raw (snd kv))) grouped in
  match others with
  | [] => Ok [raw]
  | _ =>
      (* :173-176 *)
      let own := match dget str_eqb grouped (lit "@id") with
                 | None => []
                 | Some i => map (fun kv => {| t_about := id_str i; t_prop := fst kv; t_val := snd kv |}) (filter (fun kv => negb (str_eqb (fst kv) (lit "@id"))) grouped)
                 end in
      items <- graph (others ++ own) ;;
      res <- described grouped items ;;
      let js (o : jobj) := map (fun kv => (fst kv, Js (snd kv))) o in
      match grouped, dget str_eqb grouped (lit "@id"), res with
      | _ :: _, None, [o] => Ok [dset_all str_eqb raw (js o)]
      | _, _, _ => Ok (map js res)
      end
  end.
End Group.
