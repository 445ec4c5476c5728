(** frictionless.py: conversion of Frictionless table schemas to CSVW. *)
From Verif Require Import PyStr Dsv Json.

Definition jdict : Type := list (pystr * json).
(** d.get(k), k in d, d[k] of a dict *)
Definition fget (d : jdict) (k : String.string) : option json := dget str_eqb d (lit k).
Definition fhas (d : jdict) (k : String.string) : bool := match fget d k with Some _ => true | None => false end.
Definition fitem (d : jdict) (k : String.string) : res json := match fget d k with Some v => Ok v | None => Err KeyError end.
Definition fset (d : jdict) (k : String.string) (v : json) : jdict := dset str_eqb d (lit k) v.
(** bool(d.get(k)) *)
Definition fgiven (d : jdict) (k : String.string) : bool := match fget d k with Some v => truthy v | None => false end.
Definition is_lit (s : String.string) (v : option json) : bool := match v with Some (JStr x) => str_eqb x (lit s) | _ => false end.
Definition is_one_of (l : list String.string) (v : json) : bool := existsb (fun s => is_lit s (Some v)) l.
(** the value of an optional key, put under another one *)
Definition copy_to (from : jdict) (k : String.string) (k' : String.string) (to : jdict) : jdict :=
  match fget from k with Some v => fset to k' v | None => to end.

Section Convert.
(** str() of a JSON value that is not a string *)
Variable str_of : json -> pystr.
Definition text (j : json) : pystr := match j with JStr s => s | _ => str_of j end.
(** v[0] *)
Definition first_of (v : json) : res json :=
  match v with
  | JList (x :: _) => Ok x
  | JStr (c :: _) => Ok (JStr [c])
  | JList [] | JStr [] => Err IndexError
  | JObj _ => Err KeyError
  | _ => Err TypeError
  end.
Definition hashable (v : json) : bool := match v with JList _ | JObj _ => false | _ => true end.
Definition plain_types : list String.string := ["string"; "number"; "integer"; "boolean"; "date"; "time"; "datetime"; "duration"]%string.

(** frictionless.py:22-63: the datatype of a field *)
Definition with_base (b : String.string) : jdict := [(lit "base", JStr (lit b))].
(** :37-57 *)
Definition plain_datatype (spec : jdict) (t : json) : res jdict :=
  let d := [(lit "base", t)] in
  let d := if is_lit "string" (Some t) && fgiven spec "format" then copy_to spec "format" "dc:format" d else d in
  d <- (if is_lit "boolean" (Some t) && fgiven spec "trueValues" && fgiven spec "falseValues"
        then tv <- fitem spec "trueValues" ;; fv <- fitem spec "falseValues" ;;
             x <- first_of tv ;; y <- first_of fv ;; Ok (fset d "format" (JStr (text x ++ lit "|" ++ text y)))
        else Ok d) ;;
  if is_one_of ["number"; "integer"]%string t then
    if match fget spec "bareNumber" with Some (JBool true) => true | _ => false end then Err OtherError
    else if fhas spec "decimalChar" || fhas spec "groupChar"
         then Ok (fset d "format" (JObj ((if fgiven spec "decimalChar" then copy_to spec "decimalChar" "decimalChar" [] else [])
                                         ++ (if fgiven spec "groupChar" then copy_to spec "groupChar" "groupChar" [] else []))))
         else Ok d
  else Ok d.
Definition datatype_of (spec : jdict) : res jdict :=
  match fget spec "type" with
  | None => Ok (with_base "string")
  | Some t =>
      if is_lit "string" (Some t) && is_lit "binary" (fget spec "format") then Ok (with_base "binary")
      else if is_lit "string" (Some t) && is_lit "uri" (fget spec "format") then Ok (with_base "anyURI")
      else if negb (hashable t) then Err TypeError
      else if is_lit "year" (Some t) then Ok (with_base "gYear")
      else if is_lit "yearmonth" (Some t) then Ok (with_base "gYearMonth")
      else if is_one_of plain_types t then plain_datatype spec t
      else if is_one_of ["object"; "array"]%string t then Ok (fset (with_base "json") "dc:format" (JStr (lit "application/json")))
      else if is_lit "geojson" (Some t) then Ok (fset (with_base "json") "dc:format" (JStr (lit "application/geo+json")))
      else Ok (with_base "string")
  end.
(** :73-77 the loop over 'required', 'minLength', 'maxLength', 'minimum', 'maximum'; the 'pattern' is treated in each turn *)
Definition constraint_step (c : jdict) (d : jdict) (p : String.string) : jdict :=
  let d := copy_to c p p d in
  if fhas c "pattern" && negb (fhas d "format") then copy_to c "pattern" "format" d else d.
Definition constrain (c : jdict) (d : jdict) : jdict :=
  fold_left (constraint_step c) ["required"; "minLength"; "maxLength"; "minimum"; "maximum"]%string d.
(** :72 spec.get('constraints', {}).  Simplified: anything but a dict is a TypeError (a list or str that has none of the names would do) *)
Definition constraints_of (spec : jdict) : res jdict :=
  match fget spec "constraints" with None => Ok [] | Some (JObj c) => Ok c | Some _ => Err TypeError end.
(** convert_column_spec: frictionless.py:15-80 *)
Definition convert_column_spec (spec : jdict) : res jdict :=
  name <- fitem spec "name" ;;
  d <- datatype_of spec ;;
  c <- constraints_of spec ;;
  let res := [(lit "name", name); (lit "datatype", JObj (constrain c d))] in
  let res := match fget spec "title" with Some t => if truthy t then fset res "titles" (JList [t]) else res | None => res end in
  let res := match fget spec "description" with Some t => fset res "dc:description" (JList [t]) | None => res end in
  Ok (copy_to spec "rdfType" "propertyUrl" res).

(** x['k'] of a JSON value *)
Definition jitem (v : json) (k : String.string) : res json := match v with JObj d => fitem d k | JStr _ | JList _ => Err TypeError | _ => Err TypeError end.
Definition as_dict (v : json) : res jdict := match v with JObj d => Ok d | _ => Err TypeError end.
(** a or b *)
Definition or_else (a b : json) : json := if truthy a then a else b.
(** resource_map[k].  The names of resources are taken to be strings, as they have to be *)
Definition lookup (m : jdict) (k : json) : res json :=
  match k with
  | JStr s => match dget str_eqb m s with Some v => Ok v | None => Err KeyError end
  | JList _ | JObj _ => Err TypeError
  | _ => Err KeyError
  end.
(** convert_foreignKey: frictionless.py:83-95 *)
Definition convert_foreignKey (rsc_name : json) (fk : jdict) (rmap : jdict) : res jdict :=
  fields <- fitem fk "fields" ;;
  ref <- fitem fk "reference" ;;
  rfields <- jitem ref "fields" ;;
  rsc <- jitem ref "resource" ;;
  path <- lookup rmap (or_else rsc rsc_name) ;;
  Ok [(lit "columnReference", fields); (lit "reference", JObj [(lit "columnReference", rfields); (lit "resource", path)])].

(** a list of dicts.  Simplified: anything else is a TypeError *)
Definition dict_list (v : json) : res (list jdict) := match v with JList l => mapM as_dict l | _ => Err TypeError end.
(** convert_table_schema: frictionless.py:98-123 *)
Definition convert_table_schema (rsc_name : json) (schema : jdict) (rmap : jdict) : res jdict :=
  fields <- fitem schema "fields" ;;
  specs <- dict_list fields ;;
  cols <- mapM convert_column_spec specs ;;
  let res := [(lit "columns", JList (map JObj cols))] in
  let res := copy_to schema "missingValues" "null" res in
  let res := copy_to schema "primaryKey" "primaryKey" res in
  match fget schema "foreignKeys" with
  | None => Ok res
  | Some v => fks <- dict_list v ;; l <- mapM (fun fk => convert_foreignKey rsc_name fk rmap) fks ;; Ok (fset res "foreignKeys" (JList (map JObj l)))
  end.

(** convert_dialect: frictionless.py:126-152.  Simplified: a dialect that is not a dict is a TypeError *)
Definition dialect_dict (rsc : jdict) : res jdict :=
  d <- match fget rsc "dialect" with None => Ok [] | Some v => as_dict v end ;;
  match fget d "csv" with None => Ok d | Some v => as_dict v end.
Definition convert_dialect (rsc : jdict) : res jdict :=
  d <- dialect_dict rsc ;;
  let res := if fgiven d "delimiter" then copy_to d "delimiter" "delimiter" [] else [] in
  let res := if fgiven rsc "encoding" then copy_to rsc "encoding" "encoding" res else res in
  let res := fold_left (fun r p => copy_to d p p r) ["delimiter"; "quoteChar"; "doubleQuote"; "skipInitialSpace"; "header"]%string res in
  Ok (copy_to d "commentChar" "commentPrefix" res).

(** DataPackage.to_tablegroup: frictionless.py:173-222, up to TableGroup.fromvalue(md) *)
(** json.dumps *)
Variable dumps : json -> pystr.
Definition renamed_props : list (String.string * String.string) :=
  [("id", "dc:identifier"); ("licenses", "dc:license"); ("title", "dc:title"); ("homepage", "dcat:accessURL"); ("description", "dc:description");
   ("sources", "dc:source"); ("contributors", "dc:contributor"); ("profile", "dc:conformsTo"); ("keywords", "dc:subject"); ("created", "dc:created")]%string.
(** :205-206 *)
Definition resources_of (pkg : jdict) : res (list jdict) :=
  l <- match fget pkg "resources" with None => Ok [] | Some v => dict_list v end ;;
  Ok (filter (fun r => fhas r "path") l).
Definition resource_map (rs : list jdict) : jdict :=
  dset_all str_eqb [] (flat_map (fun r => match fget r "name", fget r "path" with Some (JStr n), Some p => [(n, p)] | _, _ => [] end) rs).
(** :208-211 *)
Definition is_table (r : jdict) : bool := fgiven r "schema" && is_lit "file" (fget r "scheme") && is_lit "csv" (fget r "format").
Definition name_of (r : jdict) : json := match fget r "name" with Some n => n | None => JNull end.
Definition convert_table (rmap : jdict) (r : jdict) : res jdict :=
  path <- fitem r "path" ;;
  schema <- (v <- fitem r "schema" ;; as_dict v) ;;
  s <- convert_table_schema (name_of r) schema rmap ;;
  d <- convert_dialect r ;;
  Ok [(lit "url", path); (lit "tableSchema", JObj s); (lit "dialect", JObj d)].
Definition to_metadata (pkg : jdict) : res jdict :=
  let md := [(lit "@context", JStr (lit "http://www.w3.org/ns/csvw")); (lit "dc:replaces", JStr (dumps (JObj pkg)))] in
  let md := fold_left (fun m p => copy_to pkg (fst p) (snd p) m) renamed_props md in
  let md := if fhas pkg "name" then if negb (fhas pkg "id") then copy_to pkg "name" "dc:identifier" md
                                    else if negb (fhas pkg "title") then copy_to pkg "name" "dc:title" md else md
            else md in
  rs <- resources_of pkg ;;
  tables <- mapM (convert_table (resource_map rs)) (filter is_table rs) ;;
  Ok (match tables with [] => md | _ => fset md "tables" (JList (map JObj tables)) end).
End Convert.
