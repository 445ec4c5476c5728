(** Specification for CSVW(url): which metadata is used. *)
From Verif Require Import PyStr Json Dsv DsvProofs4 Locate.

(** A URL, rather than the name of a local file *)
Definition remote (s : pystr) : Prop := exists r, s = lit "http://" ++ r \/ s = lit "https://" ++ r.
(** Two URLs with the same last path component *)
Definition last_part (u f : pystr) : Prop := ~ In 47%N f /\ (u = f \/ exists a, u = a ++ lit "/" ++ f).
Definition same_name (u v : pystr) : Prop := exists f, last_part u f /\ last_part v f.
(** t is a JSON object whose property url is the string s *)
Definition table_url (t : json) (s : pystr) : Prop := exists kvs, t = JObj kvs /\ dget str_eqb kvs (lit "url") = Some (JStr s).
(** A table described by some metadata: the metadata itself or one of its tables *)
Definition table_of (md t : json) : Prop :=
  exists kvs, md = JObj kvs /\
    ((dget str_eqb kvs (lit "tables") = None /\ t = md) \/
     (exists ts, dget str_eqb kvs (lit "tables") = Some (JList ts) /\ In t ts)).
(** The metadata refers to the file *)
Definition refers (md : json) (url : pystr) : Prop := exists t s, table_of md t /\ table_url t s /\ same_name url s.
(** Metadata of the expected shape *)
Definition shaped (md : json) : Prop :=
  exists kvs, md = JObj kvs /\ (dget str_eqb kvs (lit "tables") = None \/ exists ts, dget str_eqb kvs (lit "tables") = Some (JList ts)) /\
    forall t, table_of md t -> exists s, table_url t s.
(** A content type announcing that there is no header: header, =, absent, with spaces around = *)
Definition announces_no_header (ct : pystr) : Prop :=
  exists a s1 s2 b, ct = a ++ lit "header" ++ s1 ++ lit "=" ++ s2 ++ lit "absent" ++ b /\
    Forall (fun c => is_space c = true) s1 /\ Forall (fun c => is_space c = true) s2.
Section Spec.
Variable w : web.
(** The document at an address *)
Definition document (s t : pystr) : Prop := (remote s /\ exists c, wb_get w s = Ok (c, t)) \/ (~ remote s /\ wb_file w s = Some t).
(** The metadata linked in the Link header (rel=describedby): a document of one of three media types that refers to the file *)
Definition link_gives (url : pystr) (desc : option (list (pystr * pystr))) (md : json) : Prop :=
  exists d ty u t, desc = Some d /\ dget str_eqb d (lit "type") = Some ty /\
    In ty [lit "application/csvm+json"; lit "application/ld+json"; lit "application/json"] /\
    dget str_eqb d (lit "url") = Some u /\ 
    document (wb_join w url u) t /\
    wb_json w t = Some md /\ refers md url.
(** A location that answers 200 with a JSON document that refers to the file *)
Definition location_gives (url line : pystr) (md : json) : Prop :=
  exists u t, wb_expand w line url = Ok u /\ wb_get w (wb_join w url u) = Ok (200%Z, t) /\ wb_json w t = Some md /\ refers md url.
(** The locations to try: one per line in /.well-known/csvm, or the two default ones *)
Definition locations_of (url : pystr) (ls : list pystr) : Prop :=
  exists c t, wb_get w (wb_join w url (lit "/.well-known/csvm")) = Ok (c, t) /\
    ((c = 200%Z /\ Forall (fun l => ~ In 10%N l) ls /\ ls <> [] /\ join [10%N] ls = t) \/
     (c <> 200%Z /\ ls = [lit "{+url}-metadata.json"; lit "csv-metadata.json"])).
(** The first location that gives metadata *)
Definition first_gives (url : pystr) (ls : list pystr) (md : json) : Prop :=
  exists a l b, ls = a ++ l :: b /\ location_gives url l md /\ Forall (fun l' => forall md', ~ location_gives url l' md') a.
Inductive located (url : pystr) : json -> Prop :=
  | LLink ct desc md : wb_head w url = Ok (ct, desc) -> link_gives url desc md -> located url md
  | LPlace ct desc ls md : wb_head w url = Ok (ct, desc) -> (forall m, ~ link_gives url desc m) ->
      locations_of url ls -> first_gives url ls md -> located url md
  | LNone ct desc ls : wb_head w url = Ok (ct, desc) -> (forall m, ~ link_gives url desc m) ->
      locations_of url ls -> Forall (fun l => forall m, ~ location_gives url l m) ls ->
      located url (JObj [(lit "@context", JStr (lit "http://www.w3.org/ns/csvw")); (lit "url", JStr url)]).
End Spec.
