(** utils.slug, utils.normalize_name and NamedTupleReader. *)
From Verif Require Import PyStr Dsv.

(** string.punctuation *)
Definition punctuation : list N :=
  lit "!""#$%&'()*+,-./:;<=>?@[\]^_`{|}~".
(** keyword.kwlist of Python 3.7-3.13 *)
Definition kwlist : list pystr :=
  [lit "False"; lit "None"; lit "True"; lit "and"; lit "as"; lit "assert"; lit "async"; lit "await";
   lit "break"; lit "class"; lit "continue"; lit "def"; lit "del"; lit "elif"; lit "else"; lit "except";
   lit "finally"; lit "for"; lit "from"; lit "global"; lit "if"; lit "import"; lit "in"; lit "is";
   lit "lambda"; lit "nonlocal"; lit "not"; lit "or"; lit "pass"; lit "raise"; lit "return"; lit "try";
   lit "while"; lit "with"; lit "yield"].

(** The character tables of [unicodedata] and [str.lower] are oracles. *)
Record unicode := {
  nfd : pystr -> pystr;          (* unicodedata.normalize('NFD', s) *)
  is_mn : N -> bool;             (* unicodedata.category(c) == 'Mn' *)
  py_lower : pystr -> pystr      (* s.lower() *)
}.

(** [re.sub(r'\s+', ' ', s)] *)
Fixpoint squeeze_spaces (in_run : bool) (s : pystr) : pystr :=
  match s with
  | [] => []
  | c :: s' => if is_space c then (if in_run then [] else [SPACE]) ++ squeeze_spaces true s'
               else c :: squeeze_spaces false s'
  end.

(** utils.py:83-99 slug.  Replacing a punctuation character by '' removes it;
    [encode('ascii', 'ignore').decode('ascii')] keeps code points below 128;
    the final assert is [re.match('[ A-Za-z0-9]*$', res)], where '$' would also
    accept one trailing line feed. *)
Definition alnum_space (c : N) : bool := (c =? SPACE) || is_letter c || is_digit c.
Definition slug_ok (res : pystr) : bool :=
  forallb alnum_space res
  || match rev res with c :: r => (c =? LF) && forallb alnum_space r | [] => false end.
Definition slug (U : unicode) (remove_whitespace lowercase : bool) (s : pystr) : res pystr :=
  let r := filter (fun c => negb (is_mn U c)) (nfd U s) in
  let r := if lowercase then py_lower U r else r in
  let r := filter (fun c => negb (char_mem c punctuation)) r in
  let r := if remove_whitespace then filter (fun c => negb (is_space c)) r
           else squeeze_spaces false r in
  let r := filter (fun c => c <? 128) r in
  if slug_ok r then Ok r else Err AssertionError.

(** utils.py:55-80 normalize_name *)
Definition normalize_name (U : unicode) (s : pystr) : res pystr :=
  let s := replace (lit " ") (lit "_") (replace (lit ".") (lit "_") (replace (lit "-") (lit "_") s)) in
  if str_mem s kwlist then Ok (s ++ lit "_")
  else
    parts <- mapM (slug U true false) (split (lit "_") s) ;;
    let s := join (lit "_") parts in
    let s := match s with [] => lit "_" | _ => s end in
    match s with
    | [] => Err IndexError
    | c :: _ => if is_letter c || (c =? 95) then Ok s else Ok (lit "_" ++ s)
    end.

(** ** NamedTupleReader: dsv.py:330-352 *)

(** [str.isidentifier] for ASCII strings: what normalize_name returns *)
Definition ascii_identifier (s : pystr) : bool :=
  match s with
  | [] => false
  | c :: s' => (is_letter c || (c =? 95)) && forallb (fun c => is_letter c || is_digit c || (c =? 95)) s'
  end.
(** collections.namedtuple('Row', names): names must be identifiers, no keywords,
    not start with '_' and be distinct; otherwise ValueError *)
Fixpoint distinctb (l : list pystr) : bool :=
  match l with [] => true | x :: l' => negb (str_mem x l') && distinctb l' end.
Definition namedtuple (names : list pystr) : res (list pystr) :=
  if forallb (fun n => ascii_identifier n && negb (str_mem n kwlist)
                       && negb (startswith (lit "_") n)) names && distinctb names
  then Ok names else Err ValueError.

(** dsv.py:339-342 cls *)
Definition nt_cls (U : unicode) (fieldnames : list pystr) : res (list pystr) :=
  names <- mapM (normalize_name U) fieldnames ;; namedtuple names.

(** calling the namedtuple class with keyword arguments: every field must be
    given exactly once and nothing else *)
Definition nt_call (fields : list pystr) (kw : list (pystr * dval)) : res (list (pystr * dval)) :=
  if forallb (fun kv => str_mem (fst kv) fields) kw then
    mapM (fun f => match dget str_eqb kw f with Some v => Ok (f, v) | None => Err TypeError end) fields
  else Err TypeError.

(** dsv.py:344-349 item: the dict of UnicodeDictReader.item, completed by None,
    restricted to the field names and passed as keyword arguments *)
Definition nt_item (U : unicode) (fieldnames : list pystr) (restkey : dkey) (restval : option pystr)
  (row : list pystr) : res (list (pystr * dval)) :=
  let d := dict_item fieldnames restkey restval row in
  let d := fold_left (fun acc n => match dget dkey_eqb acc (Some n) with
                                   | Some _ => acc
                                   | None => dset dkey_eqb acc (Some n) (DVal None)
                                   end) fieldnames d in
  fields <- nt_cls U fieldnames ;;
  kw <- mapM (fun kv => match fst kv with
                        | Some k => if str_mem k fieldnames then n <- normalize_name U k ;; Ok [(n, snd kv)] else Ok []
                        | None => Ok []
                        end) d ;;
  nt_call fields (dset_all str_eqb [] (concat kw)).
