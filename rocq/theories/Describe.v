(** csvwdescribe: __main__.py:30-60; DataPackage: frictionless.py:155-222; TableGroup.from_frictionless_datapackage: metadata.py:1495-1497.

    This puts together the conversion of Frictionless data packages (Frictionless.v), descriptions (Descr.v) and JSON texts (JsonText.v). *)
From Verif Require Import PyStr Json Dsv Frictionless Datatype Descr.
From Verif Require JsonText.

(** __main__.py:44 '{"delimiter": "%s"}' % args.delimiter *)
Definition dialect_arg (d : pystr) : pystr := lit "{""delimiter"": """ ++ d ++ lit """}".
(** __main__.py:46 *)
Definition one_file (csv : list pystr) : bool := match csv with [f] => negb (char_mem 42 f) | _ => false end.
(** __main__.py:42-52, 54: the arguments of the command frictionless *)
Definition describe_args (delimiter : option pystr) (csv : list pystr) : list pystr :=
  [lit "describe"; lit "--json"]
  ++ match delimiter with Some (c :: d) => [lit "--dialect"; dialect_arg (c :: d)] | _ => [] end
  ++ (if one_file csv then [lit "--format"; lit "csv"] else [lit "--type"; lit "package"])
  ++ csv.

Section Describe.
Context {B : Type} (W : world B).
Variables (str_of : json -> pystr) (fr : pystr -> pystr).
(** What DataPackage() is given: a dict or other JSON value, a Path - by the text of the file - or the text of JSON.
    Copying a DataPackage, and its directory, are not modelled *)
Inductive dp_spec := SJson (j : json) | SPath (text : pystr).
(** json.loads of a str; JSONDecodeError is a ValueError *)
Definition loads_str (s : pystr) : res json := match JsonText.loads fr s with Some j => Ok j | None => Err ValueError end.
(** DataPackage.__init__: frictionless.py:156-171.  json.loads of a list, number, True or None is a TypeError *)
Definition package_json (spec : dp_spec) : res json :=
  match spec with
  | SJson (JObj d) => Ok (JObj d)
  | SPath s => loads_str s
  | SJson (JStr s) => loads_str s
  | SJson _ => Err TypeError
  end.
(** DataPackage(spec).to_tablegroup(): frictionless.py:173-222.  Of what is no dict, .get() is an AttributeError (where `'id' in` is not an error already) *)
Definition to_tablegroup (spec : dp_spec) : res (mobj B) :=
  j <- package_json spec ;;
  match j with
  | JObj pkg => md <- to_metadata str_of (JsonText.dumps JsonText.one_line) pkg ;; fromvalue W (TableGroup_class W) (JObj md)
  | _ => Err AttributeError
  end.
(** __main__.py:54-56 *)
Definition package_of (csv : list pystr) (dp : json) : json :=
  if one_file csv then JObj [(lit "resources", JList [dp]); (lit "profile", JStr (lit "data-package"))] else dp.
(** csvwdescribe: __main__.py:30-60: what is printed, without the newline at the end.  [run]: the command frictionless, if there is one, by
    what it writes to stdout, decoded; it failing is subprocess.CalledProcessError *)
Definition csvwdescribe (run : option (list pystr -> option pystr)) (delimiter : option pystr) (csv : list pystr) : res pystr :=
  match run with
  | None => Err ValueError
  | Some f =>
      out <- (match f (describe_args delimiter csv) with Some s => Ok s | None => Err OtherError end) ;;
      dp <- loads_str out ;;
      o <- to_tablegroup (SJson (package_of csv dp)) ;;
      d <- asdict (TableGroup_class W) true o ;;
      Ok (JsonText.dumps JsonText.indented (JObj d))
  end.
End Describe.
