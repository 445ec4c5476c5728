(** CSVW(url): locating and checking metadata.  metadata.py:1644-1690, 1719-1781, 218-223, utils.py:15-16. *)
From Verif Require Import PyStr Json Dsv DsvProofs4.

(** The web and the local files, as seen by requests, json and open *)
Record web := {
  (* requests.head(url): the header content-type ('' if missing), and links['describedby'], if there is one *)
  wb_head : pystr -> res (pystr * option (list (pystr * pystr)));
  (* requests.get(url): status code and text *)
  wb_get : pystr -> res (Z * pystr);
  (* json.loads; None: JSONDecodeError *)
  wb_json : pystr -> option json;
  (* urljoin(base, s) *)
  wb_join : pystr -> pystr -> pystr;
  (* URITemplate(t).expand(url=url) *)
  wb_expand : pystr -> pystr -> res pystr;
  (* the text of a local file, if it exists *)
  wb_file : pystr -> option pystr;
  (* str(pathlib.Path(s)) and pathlib.Path(s).name *)
  wb_path : pystr -> pystr;
  wb_name : pystr -> pystr;
}.
(** utils.py:15-16 *)
Definition is_url (s : pystr) : bool := startswith (lit "http://") s || startswith (lit "https://") s.
Section Locate.
Variable w : web.

(** metadata.py:218-223; None: JSONDecodeError.  A missing file raises FileNotFoundError *)
Definition get_json (s : pystr) : res (option json) :=
  if is_url s then r <- wb_get w s ;; Ok (wb_json w (snd r))
  else match wb_file w s with Some t => Ok (wb_json w t) | None => Err OtherError end.

(** re.search(r'header\s*=\s*absent', s): metadata.py:1738 *)
Definition absent_here (s : pystr) : bool :=
  startswith (lit "header") s &&
  match lstrip_by is_space (skipn 6 s) with
  | c :: r => (c =? 61) && startswith (lit "absent") (lstrip_by is_space r)
  | [] => false
  end.
Fixpoint header_absent (s : pystr) : bool := absent_here s || match s with [] => false | _ :: r => header_absent r end.

(** url.split('/')[-1] *)
Definition last_component (s : pystr) : pystr := last (split (lit "/") s) [].
(** table['url'].split('/')[-1] *)
Definition url_of_table (t : json) : res pystr :=
  match t with
  | JObj kvs => match dget str_eqb kvs (lit "url") with
                | Some (JStr s) => Ok s
                | Some _ => Err AttributeError
                | None => Err KeyError
                end
  | _ => Err TypeError
  end.
Fixpoint describes_any (ts : list json) (url : pystr) : res bool :=
  match ts with
  | [] => Ok false
  | t :: ts => u <- url_of_table t ;; if str_eqb (last_component url) (last_component u) then Ok true else describes_any ts url
  end.
(** what a for loop runs over *)
Definition iterate (j : json) : res (list json) :=
  match j with
  | JList l => Ok l
  | JObj kvs => Ok (map (fun kv => JStr (fst kv)) kvs)
  | JStr s => Ok (map (fun c => JStr [c]) s)
  | _ => Err TypeError
  end.
(** metadata.py:1725-1732 *)
Definition describes (md : json) (url : pystr) : res bool :=
  match md with
  | JObj kvs => ts <- match dget str_eqb kvs (lit "tables") with Some j => iterate j | None => Ok [md] end ;; describes_any ts url
  | _ => Err AttributeError
  end.

(** metadata.py:1739-1746: the metadata linked in the headers, if it is used *)
Definition json_types : list pystr := [lit "application/csvm+json"; lit "application/ld+json"; lit "application/json"].
Definition linked (url : pystr) (desc : option (list (pystr * pystr))) : res (option json) :=
  match desc with
  | Some (p :: ps) =>
      match dget str_eqb (p :: ps) (lit "type") with
      | None => Err KeyError
      | Some ty =>
          if str_mem ty json_types then
            match dget str_eqb (p :: ps) (lit "url") with
            | None => Err KeyError
            | Some u => j <- get_json (wb_join w url u) ;;
                match j with
                | None => Err ValueError
                | Some md => b <- describes md url ;; Ok (if b : bool then Some md else None)
                end
            end
          else Ok None
      end
  | _ => Ok None
  end.
(** metadata.py:1748-1764: the default locations *)
Definition at_location (url line : pystr) : res (option json) :=
  u <- wb_expand w line url ;;
  r <- wb_get w (wb_join w url u) ;;
  if (fst r =? 200)%Z then
    match wb_json w (snd r) with
    | Some md => b <- describes md url ;; Ok (if b : bool then Some md else None)
    | None => Ok None
    end
  else Ok None.
Fixpoint at_locations (url : pystr) (lines : list pystr) : res (option json) :=
  match lines with
  | [] => Ok None
  | line :: rest => m <- at_location url line ;; match m with Some md => Ok (Some md) | None => at_locations url rest end
  end.
Definition default_locations : pystr := lit "{+url}-metadata.json" ++ [10] ++ lit "csv-metadata.json".
Definition locations (url : pystr) : res (list pystr) :=
  r <- wb_get w (wb_join w url (lit "/.well-known/csvm")) ;;
  Ok (split [10] (if (fst r =? 200)%Z then snd r else default_locations)).
(** metadata.py:1719-1781.  url is given *)
Definition context : pystr := lit "http://www.w3.org/ns/csvw".
Definition fallback (url : pystr) : list (pystr * json) :=
  if is_url url then [(lit "@context", JStr context); (lit "url", JStr url)]
  else [(lit "@context", JStr context); (lit "url", JStr (wb_name w url)); (lit "@base", JStr (wb_path w url))].
Definition locate_metadata (url : pystr) : res (json * bool) :=
  if is_url url then
    h <- wb_head w url ;;
    let no_header := header_absent (fst h) in
    m <- linked url (snd h) ;;
    match m with
    | Some md => Ok (md, no_header)
    | None =>
        ls <- locations url ;;
        m <- at_locations url ls ;;
        match m with Some md => Ok (md, no_header) | None => Ok (JObj (fallback url), no_header) end
    end
  else
    match wb_file w (url ++ lit "-metadata.json") with
    | Some t => match wb_json w t with Some md => Ok (md, false) | None => Err ValueError end
    | None => Ok (JObj (fallback url), false)
    end.

(** "http://www.w3.org/ns/csvw" in j *)
Definition has_context (j : json) : res bool :=
  match j with
  | JStr s => Ok (contains context s)
  | JList l => Ok (existsb (fun x => match x with JStr s => str_eqb s context | _ => false end) l)
  | JObj kvs => Ok (str_mem context (map fst kvs))
  | _ => Err TypeError
  end.
(** What is opened: the metadata, whether it describes a group, no_metadata, and whether the dialect's header is set to False.
    metadata.py:1644-1681 without the construction of the Table or TableGroup *)
Record opened := { op_md : list (pystr * json); op_group : bool; op_nometa : bool; op_no_header : bool }.
Definition csvw_open (url : pystr) (md_url : option pystr) : res opened :=
  j <- get_json (match md_url with Some (c :: u) => c :: u | _ => url end) ;;
  mn <- match j with Some md => Ok (md, false) | None => locate_metadata url end ;;
  match fst mn with
  | JObj kvs =>
      c <- has_context (getdef (dget str_eqb kvs (lit "@context")) (JStr [])) ;;
      if c : bool then
        let nometa := forallb (fun k => str_mem k [lit "@context"; lit "url"]) (map fst kvs) && str_mem (lit "@context") (map fst kvs) && str_mem (lit "url") (map fst kvs) in
        match dget str_eqb kvs (lit "tables") with
        | Some (JList (_ :: _)) => Ok {| op_md := kvs; op_group := true; op_nometa := nometa; op_no_header := false |}
        | Some _ => Err ValueError
        | None => Ok {| op_md := kvs; op_group := false; op_nometa := nometa; op_no_header := is_url url && snd mn |}
        end
      else Err ValueError
  | _ => Err AttributeError
  end.
End Locate.
