(** Specification for CHECK constraints (C42). *)
From Coq Require Import QArith.
From Verif Require Import PyStr Dsv Dec Dates Datatype Column Group Sql Db DbSql Sqlite DbWrite DbWriteSpec.
Open Scope N_scope.

(** str() of a bound; [date_str] is that of datetimes *)
Definition py_str (date_str : dt -> pystr) (v : value) : pystr :=
  match v with VInt z => int_str z | VDec x => dec_str x | VDate x => date_str x | VStr t => t | _ => [] end.
(** what db.py sees of a datatype (Db.dtinfo) are the facets with which the datatype validates *)
Record describes (date_str : dt -> pystr) (F : facets value) (i : dtinfo) : Prop := {
  ds_min : di_min i = option_map (py_str date_str) (fc_minimum F);
  ds_max : di_max i = option_map (py_str date_str) (fc_maximum F);
  ds_length : di_length i = fc_length F;
  ds_minLength : di_minLength i = fc_minLength F;
  ds_maxLength : di_maxLength i = fc_maxLength F;
}.
(** the value of a Decimal *)
Definition dec_q (neg : bool) (c : N) (e : Z) : Q := (inject_Z (if neg then -1 else 1) * inject_Z (Z.of_N c) * Qpower (inject_Z 10) e)%Q.

(** What is known of floating-point numbers: float() of a Decimal, and a number in SQL that is not an integer of 64 bits, are rounded to the same double;
    rounding is monotone and symmetric, and exact for small integers and for 2^63. *)
Record reals (rnd : Q -> Q) (P : py_fns) (St : store_fns) : Prop := {
  re_mono : forall a b, (a <= b)%Q -> (rnd a <= rnd b)%Q;
  re_opp : forall a, (rnd (- a) == - rnd a)%Q;
  re_small : forall z, (Z.abs z <= 2 ^ 53)%Z -> (rnd (inject_Z z) == inject_Z z)%Q;
  re_big : (rnd (inject_Z (2 ^ 63)) == inject_Z (2 ^ 63))%Q;
  re_float : forall n c e q, py_float P (VDec (Fin n c e)) = Ok q -> (q == rnd (dec_q n c e))%Q;
  re_finite : forall x q, py_float P (VDec x) = Ok q -> exists n c e, x = Fin n c e;
  re_literal : forall c e, (literal_real St (dec_str (Fin false c e)) == rnd (dec_q false c e))%Q;
}.
(** What is known of date() and datetime(): NULL for NULL; of the text of a date they give a text, the same for the text in the database and for str() of the
    date, and the later the date, the greater the text. *)
Definition sql_func (t : pystr) : pystr := if str_eqb t (lit "date") then lit "DATE" else lit "DATETIME".
Record dates (date_str : dt -> pystr) (P : py_fns) (St : store_fns) : Prop := {
  da_null : forall t, date_fn St (sql_func t) SNull = SNull;
  da_text : forall t x, t = lit "date" \/ t = lit "datetime" -> dt_ok x = true -> exists r, date_fn St (sql_func t) (SText (date_str x)) = SText r /\
              forall u, to_string P t (VDate x) = Ok u -> date_fn St (sql_func t) (SText u) = SText r;
  da_mono : forall t x x' r r', t = lit "date" \/ t = lit "datetime" -> dt_ok x = true -> dt_ok x' = true -> dt_cmp x x' <> Gt ->
              date_fn St (sql_func t) (SText (date_str x)) = SText r -> date_fn St (sql_func t) (SText (date_str x')) = SText r' -> str_cmp r r' <> Gt;
}.

(** a value of the type of the column; strings without null characters; nothing is longer than a database could hold *)
Definition of_type (t : pystr) (v : value) : Prop :=
  match v with
  | VInt _ => t = lit "integer"
  | VDec _ => t = lit "decimal"
  | VDate x => (t = lit "date" \/ t = lit "datetime") /\ dt_ok x = true
  | VStr s => t = lit "string" /\ ~ In 0 s /\ (Z.of_nat (length s) < 2 ^ 63)%Z
  | VBytes b => t = lit "hexBinary" /\ (Z.of_nat (length b) < 2 ^ 63)%Z
  | VBool _ => t = lit "boolean"
  end.
(** a bound: of the type of the column; for decimals, an integer that is written without point only if a double can hold it *)
Definition bound_ok (t : pystr) (b : value) : Prop :=
  of_type t b /\ match b with VDec (Fin _ c e) => e <> 0%Z \/ c <= 2 ^ 53 | VDec _ => False | VStr _ | VBytes _ | VBool _ => False | _ => True end.
(** no length that db.py would put into the constraint *)
Definition no_lengths (F : facets value) : Prop :=
  (fc_length F = None \/ fc_length F = Some 0%Z) /\ (fc_minLength F = None \/ fc_minLength F = Some 0%Z) /\ (fc_maxLength F = None \/ fc_maxLength F = Some 0%Z).
(** A column, its datatype and a value that the datatype accepts.  Lengths are for strings and bytes. *)
Record accepted (date_str : dt -> pystr) (c : colspec) (v : value) : Prop := {
  ac_single : opt_true (cs_separator c) = false;
  ac_type : of_type (cs_type c) v;
  ac_valid : match cs_csvw c with
             | None => True
             | Some i => exists F cls, describes date_str F i /\ dget str_eqb DATATYPES (cs_type c) = Some cls /\ validate value_ops cls F v = Ok v /\
                 (forall b, fc_minimum F = Some b -> bound_ok (cs_type c) b) /\ (forall b, fc_maximum F = Some b -> bound_ok (cs_type c) b) /\
                 (no_lengths F \/ cs_type c = lit "string" \/ cs_type c = lit "hexBinary")
             end;
}.
(** the values of a row: None, single values, and lists in columns without such constraints *)
Definition unconstrained (i : dtinfo) : Prop := di_min i = None /\ di_max i = None /\
  (di_length i = None \/ di_length i = Some 0%Z) /\ (di_minLength i = None \/ di_minLength i = Some 0%Z) /\ (di_maxLength i = None \/ di_maxLength i = Some 0%Z).
Definition value_accepted (date_str : dt -> pystr) (c : colspec) (v : pyval value) : Prop :=
  match v with
  | PNone => True
  | POne x => accepted date_str c x
  | PList _ => match cs_csvw c with None => True | Some i => unconstrained i end
  end.
