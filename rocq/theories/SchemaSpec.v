(** Specification for C34. *)
From Verif Require Import PyStr Dsv Json NatLang Column Schema.

(** no regular column after a virtual one *)
Definition virtual_last {V} (cols : list (column V)) : Prop :=
  forall before c mid c' after, cols = before ++ c :: mid ++ c' :: after -> c_virtual c = true -> c_virtual c' = true.

Definition has_name {V} (c : column V) (n : pystr) : Prop := c_name c = Some n /\ n <> [].
(** no two regular columns have the same name *)
Definition distinct_names {V} (cols : list (column V)) : Prop :=
  forall before c mid c' after n, cols = before ++ c :: mid ++ c' :: after ->
    c_virtual c = false -> c_virtual c' = false -> has_name c n -> has_name c' n -> False.

(** the columns are the same apart from their numbers, which are 1, 2, ... *)
Definition numbered {V} (cols cols' : list (column V)) : Prop :=
  length cols' = length cols /\
  forall i c, nth_error cols i = Some c -> nth_error cols' i = Some (set_number c (S i)).

(** headers can be computed: this fails with IndexError only for a column without name whose plain titles are [] *)
Definition headers_defined {V} (cols : list (column V)) : Prop :=
  forall c, In c cols -> (exists n, has_name c n) \/ (forall nl, c_titles c = Some nl -> dget dkey_eqb nl None <> Some []).

(** ** Warnings *)
(** a name that is not allowed: it starts with an underscore or has white space *)
Definition odd_name (n : pystr) : Prop := (exists s, n = lit "_" ++ s) \/ exists x, In x n /\ is_space x = true.
(** two regular columns have the same header (computed before the columns are numbered) *)
Definition same_header {V} (cols : list (column V)) : Prop :=
  exists before c mid c' after h, cols = before ++ c :: mid ++ c' :: after /\ c_virtual c = false /\ c_virtual c' = false /\ header c = Ok h /\ header c' = Ok h.
(** c is the last column with the header k *)
Definition last_column {V} (cols : list (column V)) (k : pystr) (c : column V) : Prop :=
  exists before after, cols = before ++ c :: after /\ header c = Ok k /\ forall c', In c' after -> header c' <> Ok k.
(** the primary key refers to a column without name *)
Definition nameless_key {V} (cols : list (column V)) (pk : option (list pystr)) : Prop :=
  exists ks k c, pk = Some ks /\ In k ks /\ last_column cols k c /\ forall n, ~ has_name c n.
