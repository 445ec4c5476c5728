(** metadata.NaturalLanguage: metadata.py:322-372. *)
From Verif Require Import PyStr Dsv Json.

(** An OrderedDict: language tag (None = no language) -> titles.  The attribute [value] (the
    constructor's argument) takes no part in equality and is not modelled. *)
Definition natlang := list (option pystr * list pystr).

Section Lang.
(** language_tags.tags.check for a str *)
Variable tag_ok : pystr -> bool.

Definition strings (l : list json) : list pystr :=
  flat_map (fun v => match v with JStr s => [s] | _ => [] end) l.
Definition is_str (v : json) : bool := match v with JStr _ => true | _ => false end.
(** metadata.py:338-350: the titles of one language; non-strings are dropped with a warning *)
Definition titles_of (v : json) : list pystr := strings (match v with JList l => l | _ => [v] end).

(** metadata.py:328-352 __init__.  [self[k] = titles] on keys that are distinct because they come from a dict. *)
Definition nl_init (v : json) : res natlang :=
  match v with
  | JStr s => Ok [(None, [s])]
  | JList l => if forallb is_str l then Ok [(None, strings l)] else Ok []
  | JObj kvs =>
      mapM (fun kv => if tag_ok (fst kv) then Ok (Some (fst kv), titles_of (snd kv)) else Err ValueError) kvs
  | _ => Err ValueError
  end.

(** metadata.py:363-366 add *)
Definition nl_add (nl : natlang) (t : pystr) (lang : option pystr) : natlang :=
  dset dkey_eqb nl lang (getdef (dget dkey_eqb nl lang) [] ++ [t]).

(** metadata.py:371-372 getfirst(); IndexError for an empty list *)
Definition nl_getfirst (nl : natlang) (lang : option pystr) : res (option pystr) :=
  match dget dkey_eqb nl lang with
  | None => Ok None
  | Some (t :: _) => Ok (Some t)
  | Some [] => Err IndexError
  end.

(** [v[0] if len(v) == 1 else v] *)
Definition one_or_list (v : list pystr) : json :=
  match v with [t] => JStr t | _ => JList (map JStr v) end.
(** metadata.py:354-361 asdict *)
Definition nl_asdict (nl : natlang) : json :=
  match nl with
  | [(None, v)] => one_or_list v
  | _ => JObj (dset_all str_eqb []
                 (map (fun kv => (match fst kv with None => lit "und" | Some k => k end, one_or_list (snd kv))) nl))
  end.
End Lang.
