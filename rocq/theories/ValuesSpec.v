(** Which values the modelled datatypes can represent (C25). *)
From Verif Require Import PyStr Json Dec Numeric NumericSpec Basic BasicSpec Dates Datatype DatatypeSpec Column Values.

(** a datatype with the values it is meant for *)
Inductive typed_value (py_babel : num -> pystr -> res pystr) (udigit : N -> option N) : dtype value -> value -> Prop :=
| tv_string F s : validate value_ops CString F (VStr s) = Ok (VStr s) ->
    typed_value py_babel udigit (dt_string F) (VStr s)
| tv_boolean fmt F b : (forall x, no_bar x -> fmt <> bool_format x x) -> validate value_ops CBool F (VBool b) = Ok (VBool b) ->
    typed_value py_babel udigit (dt_boolean fmt F) (VBool b)
| tv_integer name r F z : In (name, r) integer_types -> documented_range name z -> fits (Z.to_N (Z.abs z)) ->
    validate value_ops CDecimal F (VInt z) = Ok (VInt z) ->
    typed_value py_babel udigit (dt_integer udigit py_babel name r F) (VInt z)
| tv_decimal F neg c e : printed_plainly c e -> fits c ->
    validate value_ops CDecimal F (VDec (Fin neg c e)) = Ok (VDec (Fin neg c e)) ->
    typed_value py_babel udigit (dt_decimal udigit py_babel F) (VDec (Fin neg c e))
| tv_hex F b : is_bytes b -> validate value_ops CHex F (VBytes b) = Ok (VBytes b) ->
    typed_value py_babel udigit (dt_hex F) (VBytes b).

(** numbers, and the characters they are written with *)
Definition number_value (v : value) : Prop := match v with VInt _ | VDec _ => True | _ => False end.
Definition number_char (c : N) : Prop := 48 <= c <= 57 \/ c = 45 \/ c = 46.
