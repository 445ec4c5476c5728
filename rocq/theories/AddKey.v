(** Table.add_foreign_key: metadata.py:1197-1212. *)
From Verif Require Import PyStr Dsv Json Datatype Descr.

(** What may be given for columns: values of JSON, or a tuple of such *)
Inductive carg := CJson (j : json) | CTuple (l : list json).
(** metadata.py:1205 *)
Definition colref_items (c : carg) : list json := match c with CJson (JList l) | CTuple l => l | CJson j => [j] end.
(** What the converter of column_reference (metadata.py:855-859) makes of it: a tuple is no list, so it becomes the only element of one.  A tuple in
    a list is written here like a list *)
Definition colref_list (c : carg) : json := match c with CJson j => conv_colref j | CTuple l => JList [JList l] end.
(** metadata.py:1205: what is no list or tuple - None, too - is put into a list *)
Definition own_list (c : carg) : json := match c with CJson (JList l) => JList l | CJson j => JList [j] | CTuple l => JList [JList l] end.

Section AddKey.
Context {B : Type}.
Definition put {A} (n : nat) (v : A) (l : list A) : list A := firstn n l ++ v :: skipn (S n) l.
Definition put_val (n : nat) (v : mval B) (o : mobj B) : mobj B := MO (o_num o) (o_common o) (o_at o) (put n v (o_vals o)).
(** metadata.py:1197-1212.  tableSchema is attribute 14 of a table, columns and foreignKeys are attributes 11 and 12 of a schema.
    A tableSchema that is a link which could not be followed has no columns *)
Definition add_foreign_key (t : mobj B) (cols : carg) (resource : json) (refcols : carg) : res (mobj B) :=
  match nth 14 (o_vals t) (MJ JNull) with
  | MObj s =>
      match nth 11 (o_vals s) (MJ JNull), nth 12 (o_vals s) (MJ JNull) with
      | MObjs cs, MFks ks =>
          if forallb (fun c => existsb (fun n => py_eq c n) (map col_name cs)) (colref_items cols) then
            k <- fkey_of [(lit "columnReference", own_list cols);
                          (lit "reference", JObj [(lit "resource", resource); (lit "columnReference", colref_list refcols)])] ;;
            Ok (put_val 14 (MObj (put_val 12 (MFks (ks ++ [k])) s)) t)
          else Err ValueError
      | _, _ => Err OtherError (* unreachable *)
      end
  | _ => Err AttributeError
  end.
End AddKey.
