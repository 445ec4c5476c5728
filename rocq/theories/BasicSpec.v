(** Vocabulary of C14, C20, C22. *)
From Verif Require Import PyStr Json.

(** a boolean format: X|Y *)
Definition bool_format (x y : pystr) : json := JStr (x ++ lit "|" ++ y).
Definition no_bar (s : pystr) : Prop := ~ In 124 s.
(** formats which are ignored: not a string with exactly one '|' *)
Definition unusable (fmt : json) : Prop := forall x y, no_bar x -> no_bar y -> fmt <> bool_format x y.

Definition is_bytes (b : list N) : Prop := Forall (fun x => x < 256) b.
Definition hex_char (c : N) : Prop := 48 <= c <= 57 \/ 65 <= c <= 70 \/ 97 <= c <= 102.
Definition hex_text (s : pystr) : Prop := Forall hex_char s /\ exists n, length s = (2 * n)%nat.

(** the characters base64 decoding takes into account *)
Definition b64_letter (c : N) : bool :=
  is_letter c || is_digit c || (c =? 43) || (c =? 47) || (c =? 61).

Definition word_text (word : N -> bool) (v : pystr) : Prop :=
  forall c, In c v -> word c = true \/ c = 46 \/ c = 58 \/ c = 45.
