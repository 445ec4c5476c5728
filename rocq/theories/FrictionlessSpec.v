(** What C46 and C50 say: how Frictionless descriptors correspond to CSVW. *)
From Verif Require Import PyStr Dsv Json Frictionless.

(** The types of Table Schema and the datatypes of CSVW; other types are read as strings. *)
Definition type_table : list (String.string * String.string) :=
  [("string", "string"); ("number", "number"); ("integer", "integer"); ("boolean", "boolean"); ("date", "date"); ("time", "time"); ("datetime", "datetime");
   ("duration", "duration"); ("year", "gYear"); ("yearmonth", "gYearMonth"); ("object", "json"); ("array", "json"); ("geojson", "json")]%string.
Fixpoint assoc (l : list (String.string * String.string)) (t : pystr) : pystr :=
  match l with [] => lit "string" | (a, b) :: r => if str_eq_dec t (lit a) then lit b else assoc r t end.
Definition expected_base (spec : jdict) : pystr :=
  match fget spec "type", fget spec "format" with
  | Some (JStr t), Some (JStr f) =>
      if str_eq_dec t (lit "string") then if str_eq_dec f (lit "binary") then lit "binary" else if str_eq_dec f (lit "uri") then lit "anyURI" else lit "string"
      else assoc type_table t
  | Some (JStr t), _ => assoc type_table t
  | _, _ => lit "string"
  end.
(** a constraint of a field *)
Definition constraint (spec : jdict) (p : String.string) : option json :=
  match fget spec "constraints" with Some (JObj c) => fget c p | _ => None end.
Definition field_type (spec : jdict) (t : String.string) : Prop := fget spec "type" = Some (JStr (lit t)).
(** Field descriptors that are supported *)
Record field_ok (spec : jdict) : Prop := {
  fo_name : exists n, fget spec "name" = Some n;
  fo_type : forall t, fget spec "type" = Some t -> exists s, t = JStr s;
  fo_bare : field_type spec "number" \/ field_type spec "integer" -> fget spec "bareNumber" <> Some (JBool true);
  fo_words : forall p v, p = "trueValues"%string \/ p = "falseValues"%string -> fget spec p = Some v -> exists l, v = JList l;
  fo_constraints : forall c, fget spec "constraints" = Some c -> exists d, c = JObj d;
}.
Section Format.
Variable str_of : json -> pystr.
(** the format of the datatype of a field: 'X|Y' for Booleans with values, the special characters of numbers, or else the pattern *)
Inductive format_for (spec : jdict) : option json -> Prop :=
| ff_boolean x l y m : field_type spec "boolean" -> fget spec "trueValues" = Some (JList (x :: l)) -> fget spec "falseValues" = Some (JList (y :: m)) ->
    format_for spec (Some (JStr (text str_of x ++ lit "|" ++ text str_of y)))
| ff_number d : field_type spec "number" \/ field_type spec "integer" -> (exists v, fget spec "decimalChar" = Some v) \/ (exists v, fget spec "groupChar" = Some v) ->
    (forall k v, In (k, v) d <-> (k = lit "decimalChar" \/ k = lit "groupChar") /\ dget str_eqb spec k = Some v /\ truthy v = true) ->
    format_for spec (Some (JObj d))
| ff_pattern : ~ (field_type spec "boolean" /\ exists x l y m, fget spec "trueValues" = Some (JList (x :: l)) /\ fget spec "falseValues" = Some (JList (y :: m))) ->
    ~ ((field_type spec "number" \/ field_type spec "integer") /\ ((exists v, fget spec "decimalChar" = Some v) \/ (exists v, fget spec "groupChar" = Some v))) ->
    format_for spec (constraint spec "pattern").
End Format.
(** The column for a field *)
Record converted (str_of : json -> pystr) (spec res : jdict) : Prop := {
  cv_name : fget res "name" = fget spec "name";
  cv_titles : fget res "titles" = match fget spec "title" with Some t => if truthy t then Some (JList [t]) else None | None => None end;
  cv_description : fget res "dc:description" = option_map (fun t => JList [t]) (fget spec "description");
  cv_property : fget res "propertyUrl" = fget spec "rdfType";
  cv_keys : forall k, In k (map fst res) -> In k [lit "name"; lit "datatype"; lit "titles"; lit "dc:description"; lit "propertyUrl"];
  cv_datatype : exists d, fget res "datatype" = Some (JObj d) /\
    fget d "base" = Some (JStr (expected_base spec)) /\
    (forall p, In p ["minLength"; "maxLength"; "minimum"; "maximum"]%string -> fget d p = constraint spec p) /\
    format_for str_of spec (fget d "format");
}.
(** a foreign key: the columns, and the columns of the resource referred to - an empty name is the table itself *)
Definition fk_converted (own : json) (paths : pystr -> option json) (fk res : jdict) : Prop :=
  exists cols ref rcols rsc n path, fget fk "fields" = Some cols /\ fget fk "reference" = Some (JObj ref) /\ fget ref "fields" = Some rcols /\ fget ref "resource" = Some rsc /\
    JStr n = (if truthy rsc then rsc else own) /\ paths n = Some path /\
    res = [(lit "columnReference", cols); (lit "reference", JObj [(lit "columnReference", rcols); (lit "resource", path)])].
(** a table schema: one column per field, in order; null, primary key and foreign keys *)
Record schema_converted (str_of : json -> pystr) (own : json) (paths : pystr -> option json) (schema res : jdict) : Prop := {
  sc_columns : exists specs cols, fget schema "fields" = Some (JList (map JObj specs)) /\ fget res "columns" = Some (JList (map JObj cols)) /\
    Forall2 (fun spec col => convert_column_spec str_of spec = Ok col) specs cols;
  sc_null : fget res "null" = fget schema "missingValues";
  sc_key : fget res "primaryKey" = fget schema "primaryKey";
  sc_fks : match fget schema "foreignKeys" with
           | None => fget res "foreignKeys" = None
           | Some v => exists fks l, v = JList (map JObj fks) /\ fget res "foreignKeys" = Some (JList (map JObj l)) /\ Forall2 (fk_converted own paths) fks l
           end;
  sc_keys : forall k, In k (map fst res) -> In k [lit "columns"; lit "null"; lit "primaryKey"; lit "foreignKeys"];
}.
(** the CSV dialect of a resource; it may be given under 'csv' *)
Definition dialect_of (rsc : jdict) : jdict :=
  match fget rsc "dialect" with
  | Some (JObj d) => match fget d "csv" with Some (JObj c) => c | _ => d end
  | _ => []
  end.
Record dialect_converted (rsc res : jdict) : Prop := {
  dc_same : forall p, In p ["delimiter"; "quoteChar"; "doubleQuote"; "skipInitialSpace"; "header"]%string -> fget res p = fget (dialect_of rsc) p;
  dc_comment : fget res "commentPrefix" = fget (dialect_of rsc) "commentChar";
  dc_encoding : fget res "encoding" = match fget rsc "encoding" with Some e => if truthy e then Some e else None | None => None end;
  dc_keys : forall k, In k (map fst res) -> In k [lit "delimiter"; lit "quoteChar"; lit "doubleQuote"; lit "skipInitialSpace"; lit "header"; lit "commentPrefix"; lit "encoding"];
}.
(** the resources that become tables: with path, schema, scheme 'file' and format 'csv' *)
Definition tabular (r : jdict) : Prop :=
  (exists p, fget r "path" = Some p) /\ (exists s, fget r "schema" = Some s /\ truthy s = true) /\ fget r "scheme" = Some (JStr (lit "file")) /\ fget r "format" = Some (JStr (lit "csv")).
(** those of a list, in order *)
Inductive tables_of : list jdict -> list jdict -> Prop :=
| to_nil : tables_of [] []
| to_take r rs l : tabular r -> tables_of rs l -> tables_of (r :: rs) (r :: l)
| to_skip r rs l : ~ tabular r -> tables_of rs l -> tables_of (r :: rs) l.
(** the path of a resource: that of the last resource of this name *)
Definition path_of (rs : list jdict) (n : pystr) : option json :=
  match filter (fun r => match fget r "name", fget r "path" with Some (JStr m), Some _ => str_eqb n m | _, _ => false end) (rev rs) with
  | r :: _ => fget r "path"
  | [] => None
  end.
Record table_converted (str_of : json -> pystr) (rs : list jdict) (r t : jdict) : Prop := {
  tc_url : fget t "url" = fget r "path";
  tc_schema : exists schema s, fget r "schema" = Some (JObj schema) /\ fget t "tableSchema" = Some (JObj s) /\
    schema_converted str_of (match fget r "name" with Some n => n | None => JNull end) (path_of rs) schema s;
  tc_dialect : exists d, fget t "dialect" = Some (JObj d) /\ dialect_converted r d;
  tc_keys : forall k, In k (map fst t) -> In k [lit "url"; lit "tableSchema"; lit "dialect"];
}.
(** The metadata of a package: descriptive properties renamed, the package itself kept as JSON text under dc:replaces, one table for every tabular resource, in order. *)
Definition package_props : list (String.string * String.string) :=
  [("licenses", "dc:license"); ("homepage", "dcat:accessURL"); ("description", "dc:description"); ("sources", "dc:source"); ("contributors", "dc:contributor");
   ("profile", "dc:conformsTo"); ("keywords", "dc:subject"); ("created", "dc:created")]%string.
Definition resources (pkg : jdict) (rs : list jdict) : Prop :=
  match fget pkg "resources" with None => rs = [] | Some v => v = JList (map JObj rs) end.
Record package_converted (str_of dumps : json -> pystr) (pkg md : jdict) : Prop := {
  pc_context : fget md "@context" = Some (JStr (lit "http://www.w3.org/ns/csvw"));
  pc_replaces : fget md "dc:replaces" = Some (JStr (dumps (JObj pkg)));
  pc_props : forall p q, In (p, q) package_props -> fget md q = fget pkg p;
  pc_identifier : fget md "dc:identifier" = match fget pkg "id" with Some v => Some v | None => fget pkg "name" end;
  pc_title : fget md "dc:title" = match fget pkg "title" with Some v => Some v | None => match fget pkg "id" with Some _ => fget pkg "name" | None => None end end;
  pc_tables : exists rs tabs ts, resources pkg rs /\ tables_of rs tabs /\ Forall2 (table_converted str_of rs) tabs ts /\
    fget md "tables" = (match ts with [] => None | _ => Some (JList (map JObj ts)) end);
  pc_keys : forall k, In k (map fst md) -> In k [lit "@context"; lit "dc:replaces"; lit "dc:identifier"; lit "dc:title"; lit "tables"] \/ In k (map (fun p => lit (snd p)) package_props);
}.
