(** Concrete datatypes as used by columns: string, boolean, integer and its subtypes, decimal, hexBinary
    (metadata.Datatype over datatypes.py, see Basic.v, Numeric.v, Datatype.v). *)
From Verif Require Import PyStr Dsv Json Dec Numeric Dates Basic Datatype Column.

Section Values.
(** str() of values which are not str, and of lists *)
Variable py_str : value -> pystr.
Variable py_repr : list (option value) -> pystr.
(** unicodedata.decimal for non-ASCII characters; babel.numbers.format_decimal *)
Variable udigit : N -> option N.
Variable babel : num -> pystr -> res pystr.

Definition value_scalars : scalars value :=
  {| s_str := VStr;
     s_cell := fun v => match v with VStr s => CStr s | _ => COther (py_str v) end;
     s_truthy := v_truthy value_ops;
     s_iter := fun v => match v with
                        | VStr s => Ok (map (fun c => VStr [c]) s)
                        | VBytes b => Ok (map (fun c => VInt (Z.of_N c)) b)
                        | _ => Err TypeError
                        end;
     s_repr := py_repr |}.

(** no text is noisy *)
Definition quiet (_ : pystr) : bool := false.
(** formatted() of values of another Python type is not modelled (OtherError) *)
Definition mk_dtype (base : pystr) (c : dclass) (F : facets value) (noisy : pystr -> bool) (parse : pystr -> res value) (fmt : value -> res pystr) : dtype value :=
  {| dt_base := base; dt_reads := dt_read value_ops parse c F; dt_noisy := noisy; dt_fmt := fmt; dt_fmt_list := fun _ => Err OtherError |}.

(** datatypes.py:85-110, without format *)
Definition dt_string (F : facets value) : dtype value :=
  mk_dtype (lit "string") CString F quiet (fun s => Ok (VStr s)) (fun v => match v with VStr s => Ok s | _ => Err OtherError end).
(** datatypes.py:237-280 *)
Definition dt_boolean (fmt : json) (F : facets value) : dtype value :=
  mk_dtype (lit "boolean") CBool F (fun _ => odd_bool_format fmt)
    (fun s => b <- bool_to_python (bool_words fmt) s ;; Ok (VBool b))
    (fun v => match v with VBool b => Ok (bool_to_string (bool_words fmt) b) | _ => Err OtherError end).
(** datatypes.py:607-806 *)
Definition dt_integer (name : pystr) (r : irange) (F : facets value) : dtype value :=
  mk_dtype name CDecimal F (special_warning udigit nofmt)
    (fun s => z <- integer_to_python udigit r nofmt s ;; Ok (VInt z))
    (fun v => match v with VInt z => decimal_to_string babel nofmt (NInt z) | _ => Err OtherError end).
(** datatypes.py:497-605 *)
Definition dt_decimal (F : facets value) : dtype value :=
  mk_dtype (lit "decimal") CDecimal F (special_warning udigit nofmt)
    (fun s => d <- decimal_to_python udigit nofmt s ;; Ok (VDec d))
    (fun v => match v with VDec d => decimal_to_string babel nofmt (NDec d) | _ => Err OtherError end).
(** datatypes.py:207-234 *)
Definition dt_hex (F : facets value) : dtype value :=
  mk_dtype (lit "hexBinary") CHex F quiet
    (fun s => b <- hex_to_python s ;; Ok (VBytes b))
    (fun v => match v with VBytes b => Ok (hex_to_string b) | _ => Err OtherError end).
End Values.
