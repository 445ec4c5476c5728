(** What C52 says of zipped and remote files. *)
From Verif Require Import PyStr PyCsv Dsv.

(** no cell of the rows has a carriage return *)
Definition no_cr (rows : list (list pystr)) : Prop := forall row cell, In row rows -> In cell row -> ~ In CR cell.
(** delimiter and quote character are no line breaks *)
Definition no_break_chars (d : dialect) : Prop := ~ In CR (d_delimiter d) /\ ~ In LF (d_delimiter d) /\ match d_quoteChar d with Some q => ~ In CR q /\ ~ In LF q | None => True end.
(** the encoding has a name that Python knows, and content in utf-8 does not start with a byte order mark *)
Definition bom_fits (d : dialect) (file : pystr) : Prop := d_encoding d <> lit "UTF-8-BOM" /\ (d_encoding d = lit "utf-8" -> forall t, file <> BOM :: t).
