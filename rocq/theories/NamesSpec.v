(** Vocabulary of C13. *)
From Verif Require Import PyStr Dsv Names.

Definition ascii (s : pystr) : Prop := Forall (fun c => c < 128) s.
Definition alnum (c : N) : Prop := 48 <= c <= 57 \/ 65 <= c <= 90 \/ 97 <= c <= 122.
Definition lower_alnum (c : N) : Prop := 48 <= c <= 57 \/ 97 <= c <= 122.
(** control characters that are not white space *)
Definition bad_control (c : N) : Prop := c <= 8 \/ 14 <= c <= 27 \/ c = 127.

(** what is assumed of Python's Unicode tables *)
Record unicode_ok (U : unicode) : Prop := {
  nfd_ascii : forall s, ascii s -> nfd U s = s;
  nfd_control : forall s c, bad_control c -> In c (nfd U s) -> In c s;
  mn_ascii : forall c, c < 128 -> is_mn U c = false;
  lower_ascii : forall s, ascii s -> py_lower U s = ascii_lower s;
  lower_control : forall s c, bad_control c -> In c (py_lower U s) -> In c s;
  lower_upper : forall s c, 65 <= c <= 90 -> ~ In c (py_lower U s)
}.

(** a legal attribute name made of ASCII characters *)
Definition attribute_name (s : pystr) : Prop :=
  s <> [] /\ Forall (fun c => alnum c \/ c = 95) s /\ (forall c r, s = c :: r -> ~ (48 <= c <= 57)).

(** a namedtuple can have this field *)
Definition usable_field (s : pystr) : Prop :=
  attribute_name s /\ ~ In s kwlist /\ (forall r, s <> 95 :: r).
