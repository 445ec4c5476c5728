(** Specifications for C24-C26, C36. *)
From Verif Require Import PyStr Dsv Json NatLang Column.

(** ** Cell parsing (C24) *)
Section Read.
Context {V : Type} (sc : scalars V).
(** one string value: null, or parsed by the datatype (the string itself without datatype) *)
Inductive value_reads (st : settings) : pystr -> res (option V) -> Prop :=
| vr_null s : In s (st_null st) -> value_reads st s (Ok None)
| vr_string s : ~ In s (st_null st) -> st_datatype st = None -> value_reads st s (Ok (Some (s_str sc s)))
| vr_parsed s t v : ~ In s (st_null st) -> st_datatype st = Some t -> dt_reads t s = Ok v ->
                    value_reads st s (Ok (Some v))
| vr_invalid s t e : ~ In s (st_null st) -> st_datatype st = Some t -> dt_reads t s = Err e ->
                     value_reads st s (Err e).
(** the default replaces the empty string *)
Definition with_default (st : @settings V) (s s' : pystr) : Prop :=
  (s = [] /\ s' = st_default st) \/ (s <> [] /\ s' = s).

(** the parts of a list-valued cell: what the separator separates, from left to right *)
Inductive parts_of (sep : pystr) : pystr -> list pystr -> Prop :=
| po_last s : (forall a b, s <> a ++ sep ++ b) -> parts_of sep s [s]
| po_more a b ps : (forall a' b', a ++ sep ++ b = a' ++ sep ++ b' -> (length a <= length a')%nat) ->
                   parts_of sep b ps -> parts_of sep (a ++ sep ++ b) (a :: ps).

Inductive cell_reads (st : settings) (text : pystr) : res (pyval V) -> Prop :=
| cr_missing s : with_default st text s -> st_required st = true -> In s (st_null st) ->
    cell_reads st text (Err ValueError)
| cr_scalar s r : with_default st text s -> ~ (st_required st = true /\ In s (st_null st)) -> st_separator st = None ->
    value_reads st s r ->
    cell_reads st text (match r with Ok (Some v) => Ok (POne v) | Ok None => Ok PNone | Err e => Err e end)
| cr_empty : with_default st text [] -> ~ (st_required st = true /\ In [] (st_null st)) -> st_separator st <> None ->
    cell_reads st text (Ok (PList []))
| cr_list_null s : with_default st text s -> st_required st = false -> st_separator st <> None -> s <> [] ->
    In s (st_null st) -> cell_reads st text (Ok PNone)
| cr_list s sep parts parts' vals : with_default st text s -> st_separator st = Some sep -> s <> [] ->
    ~ In s (st_null st) -> parts_of sep s parts -> Forall2 (with_default st) parts parts' ->
    Forall2 (fun p v => value_reads st p (Ok v)) parts' vals ->
    cell_reads st text (Ok (PList vals))
| cr_list_invalid s sep parts parts' good vals bad rest e : with_default st text s -> st_separator st = Some sep -> s <> [] ->
    ~ In s (st_null st) -> parts_of sep s parts -> Forall2 (with_default st) parts parts' ->
    parts' = good ++ bad :: rest -> Forall2 (fun p v => value_reads st p (Ok v)) good vals -> value_reads st bad (Err e) ->
    cell_reads st text (Err e).
End Read.

(** ** Inheritance (C26) *)
(** [a] is what the nearest description that has the property says; None if nobody says anything *)
Inductive nearest {V A} (get : desc V -> option A) : list (desc V) -> option A -> Prop :=
| nearest_none ds : (forall d, In d ds -> get d = None) -> nearest get ds None
| nearest_some before d after a : (forall d', In d' before -> get d' = None) -> get d = Some a ->
    nearest get (before ++ d :: after) (Some a).

(** null: the value [""] counts as not given *)
Definition own_null {V} (d : desc V) : option (list pystr) :=
  if list_eq_dec str_eq_dec (de_null d) [[]] then None else Some (de_null d).

(** ** Titles (C36) *)
Definition titles (nl : natlang) (lang : option pystr) : list pystr := getdef (dget dkey_eqb nl lang) [].

Fixpoint add_all (nl : natlang) (hist : list (pystr * option pystr)) : natlang :=
  match hist with [] => nl | (t, l) :: h => add_all (nl_add nl t l) h end.

Definition distinct_keys (v : json) : Prop := match v with JObj kvs => NoDup (map fst kvs) | _ => True end.

(** plain titles beside languages come back under 'und' *)
Definition und_for_none (nl : natlang) : natlang :=
  map (fun kv => (Some (match fst kv with None => lit "und" | Some k => k end), snd kv)) nl.

(** ** Lists of strings (C25) *)
(** lists of strings, without datatype, default and with the usual null: the exact condition *)
Definition plain_list {V} (st : @settings V) (c : N) : Prop :=
  st_separator st = Some [c] /\ st_datatype st = None /\ st_default st = [] /\ st_null st = [[]] /\ st_required st = false.
