(** Expansion of URI templates and QNames.  metadata.py:48-95, 300-312, 1139-1176; utils.py:108-119. *)
From Verif Require Import PyStr PyCsv Dsv Json Column Schema Table Zip Locate Files.

(** metadata.py:48-95 *)
Definition namespaces : list (pystr * pystr) :=
  [(lit "csvw", lit "http://www.w3.org/ns/csvw#");
   (lit "rdf", lit "http://www.w3.org/1999/02/22-rdf-syntax-ns#");
   (lit "rdfs", lit "http://www.w3.org/2000/01/rdf-schema#");
   (lit "xsd", lit "http://www.w3.org/2001/XMLSchema#");
   (lit "dc", lit "http://purl.org/dc/terms/");
   (lit "dcat", lit "http://www.w3.org/ns/dcat#");
   (lit "prov", lit "http://www.w3.org/ns/prov#");
   (lit "schema", lit "http://schema.org/");
   (lit "as", lit "https://www.w3.org/ns/activitystreams#");
   (lit "cc", lit "http://creativecommons.org/ns#");
   (lit "ctag", lit "http://commontag.org/ns#");
   (lit "dc11", lit "http://purl.org/dc/elements/1.1/");
   (lit "dctypes", lit "http://purl.org/dc/dcmitype/");
   (lit "dqv", lit "http://www.w3.org/ns/dqv#");
   (lit "duv", lit "https://www.w3.org/ns/duv#");
   (lit "foaf", lit "http://xmlns.com/foaf/0.1/");
   (lit "gr", lit "http://purl.org/goodrelations/v1#");
   (lit "grddl", lit "http://www.w3.org/2003/g/data-view#");
   (lit "ical", lit "http://www.w3.org/2002/12/cal/icaltzd#");
   (lit "jsonld", lit "http://www.w3.org/ns/json-ld#");
   (lit "ldp", lit "http://www.w3.org/ns/ldp#");
   (lit "ma", lit "http://www.w3.org/ns/ma-ont#");
   (lit "oa", lit "http://www.w3.org/ns/oa#");
   (lit "odrl", lit "http://www.w3.org/ns/odrl/2/");
   (lit "og", lit "http://ogp.me/ns#");
   (lit "org", lit "http://www.w3.org/ns/org#");
   (lit "owl", lit "http://www.w3.org/2002/07/owl#");
   (lit "qb", lit "http://purl.org/linked-data/cube#");
   (lit "rdfa", lit "http://www.w3.org/ns/rdfa#");
   (lit "rev", lit "http://purl.org/stuff/rev#");
   (lit "rif", lit "http://www.w3.org/2007/rif#");
   (lit "rr", lit "http://www.w3.org/ns/r2rml#");
   (lit "sd", lit "http://www.w3.org/ns/sparql-service-description#");
   (lit "sioc", lit "http://rdfs.org/sioc/ns#");
   (lit "skos", lit "http://www.w3.org/2004/02/skos/core#");
   (lit "skosxl", lit "http://www.w3.org/2008/05/skos-xl#");
   (lit "sosa", lit "http://www.w3.org/ns/sosa/");
   (lit "ssn", lit "http://www.w3.org/ns/ssn/");
   (lit "time", lit "http://www.w3.org/2006/time#");
   (lit "v", lit "http://rdf.data-vocabulary.org/#");
   (lit "vcard", lit "http://www.w3.org/2006/vcard/ns#");
   (lit "void", lit "http://rdfs.org/ns/void#");
   (lit "wdr", lit "http://www.w3.org/2007/05/powder#");
   (lit "wrds", lit "http://www.w3.org/2007/05/powder-s#");
   (lit "xhv", lit "http://www.w3.org/1999/xhtml/vocab#");
   (lit "xml", lit "http://www.w3.org/XML/1998/namespace")].

Section Expand.
Context {V : Type}.
Variable env : fenv.   (* fe_isdir, fe_join *)
(** URITemplate(t).expand with keywords kw.  Simplified: columns called 'self' and 'var_dict', which are other parameters of that method, are not modelled *)
Variable uri_expand : pystr -> list (pystr * pyval V) -> res pystr.

(** metadata.py:300-312 Link.resolve: a str or a pathlib.Path *)
Inductive place := PStr (s : pystr) | PPath (p : pystr).
Definition link_resolve (b : base) (s : pystr) : place :=
  match b with
  | BPath p => if is_url s then PStr s else PPath (joinpath (if fe_isdir env p then p else parent p) s)
  | BUrl u => PStr (fe_join env u s)
  | BNone => PStr s
  end.
Definition as_base (x : place) : base := match x with PStr s => BUrl s | PPath p => BPath p end.

(** metadata.py:1157-1162: the namespace of a template 'prefix:...' *)
Definition template_namespace (t : pystr) : option (pystr * pystr) := find (fun pu => startswith (fst pu ++ lit ":") t) namespaces.
(** metadata.py:1170-1175 *)
Definition shorten (s : pystr) : pystr :=
  match find (fun pu => startswith (snd pu) s) namespaces with
  | Some (p, u) => replace u (p ++ lit ":") s
  | None => s
  end.
(** metadata.py:1164-1168: the keyword arguments; a second value for a keyword is a TypeError *)
Definition template_vars (row : list (pystr * pyval V)) (rownum name : pyval V) : res (list (pystr * pyval V)) :=
  if str_mem (lit "_row") (map fst row) || str_mem (lit "_name") (map fst row) then Err TypeError
  else Ok ((lit "_row", rownum) :: (lit "_name", name) :: row).
(** metadata.py:1139-1176 TableLike.expand.  url: of the table (None: a group); b: its base; t: the template, None for an invalid one *)
Definition expand_template (url : option pystr) (b : base) (t : option pystr) (row : list (pystr * pyval V)) (rownum name : pyval V) (qname : bool) : res place :=
  match t with
  | None => match url with Some u => Ok (link_resolve b u) | None => Err AttributeError end
  | Some t =>
      x <- match template_namespace t with
           | Some pu => Ok (PStr (snd pu ++ nth 1 (split (lit ":") t) []))
           | None => kw <- template_vars row rownum name ;;
                     s <- uri_expand t kw ;;
                     Ok (link_resolve (match url with Some u => as_base (link_resolve b u) | None => b end) s)
           end ;;
      Ok (match x with
          | PStr s => PStr (if qname then shorten s else s)
          | PPath p => PPath p
          end)
  end.
End Expand.

(** utils.py:108-119 *)
Definition url_prefixes : list (pystr * pystr) :=
  [(lit "csvw", lit "http://www.w3.org/ns/csvw#"); (lit "rdf", lit "http://www.w3.org/1999/02/22-rdf-syntax-ns#"); (lit "rdfs", lit "http://www.w3.org/2000/01/rdf-schema#");
   (lit "xsd", lit "http://www.w3.org/2001/XMLSchema#"); (lit "dc", lit "http://purl.org/dc/terms/"); (lit "dcat", lit "http://www.w3.org/ns/dcat#"); (lit "prov", lit "http://www.w3.org/ns/prov#")].
Definition qname2url (q : pystr) : option pystr :=
  match find (fun pu => startswith (fst pu ++ lit ":") q) url_prefixes with
  | Some (p, u) => Some (replace (p ++ lit ":") u q)
  | None => None
  end.
