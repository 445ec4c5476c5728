(** Vocabulary of C58: the texts of JSON (RFC 8259, and NaN, Infinity, -Infinity) and what they denote. *)
From Verif Require Import PyStr Json.

Definition ws (w : pystr) : Prop := Forall (fun c => c = 32 \/ c = 9 \/ c = 10 \/ c = 13) w.

(** ** Numbers *)
Definition digits (ds : pystr) : Prop := ds <> [] /\ Forall (fun c => 48 <= c <= 57) ds.
Definition decimal_value (ds : pystr) : Z := fold_left (fun n c => 10 * n + (Z.of_N c - 48))%Z ds 0%Z.
(** no leading zero *)
Definition natural (ds : pystr) : Prop := digits ds /\ (hd 0 ds = 48 -> ds = [48]).
Definition minus (neg : bool) : pystr := if neg then lit "-" else [].
Definition frac_part (t : pystr) : Prop := t = [] \/ exists ds, digits ds /\ t = lit "." ++ ds.
Definition exp_part (t : pystr) : Prop :=
  t = [] \/ exists e sg ds, (e = lit "e" \/ e = lit "E") /\ (sg = [] \/ sg = lit "+" \/ sg = lit "-") /\ digits ds /\ t = e ++ sg ++ ds.
Definition float_text (t : pystr) : Prop :=
  exists neg ds fp ep, natural ds /\ frac_part fp /\ exp_part ep /\ fp ++ ep <> [] /\ t = minus neg ++ ds ++ fp ++ ep.

(** ** Strings *)
Definition hex (c v : N) : Prop := (48 <= c <= 57 /\ v = c - 48) \/ (97 <= c <= 102 /\ v = c - 97 + 10) \/ (65 <= c <= 70 /\ v = c - 65 + 10).
(** [t] is a backslash, u and four hexadecimal digits of [u] *)
Definition u_text (t : pystr) (u : N) : Prop :=
  exists a b c d x y z w, t = [92; 117; a; b; c; d] /\ hex a x /\ hex b y /\ hex c z /\ hex d w /\ u = ((x * 16 + y) * 16 + z) * 16 + w.
Definition high (u : N) : Prop := 55296 <= u <= 56319.
Definition low (u : N) : Prop := 56320 <= u <= 57343.
Definition simple_escape (e c : N) : Prop :=
  In (e, c) [(34, 34); (92, 92); (47, 47); (98, 8); (102, 12); (110, 10); (114, 13); (116, 9)].
(** the text between the quotes, and the string: a high and a low surrogate next to each other, both
    written as escapes, are one character *)
Inductive str_text : pystr -> pystr -> Prop :=
| s_nil : str_text [] []
| s_plain c t s : 32 <= c -> c <> 34 -> c <> 92 -> str_text t s -> str_text (c :: t) (c :: s)
| s_escape e c t s : simple_escape e c -> str_text t s -> str_text (92 :: e :: t) (c :: s)
| s_pair t1 t2 u v t s : u_text t1 u -> high u -> u_text t2 v -> low v -> str_text t s ->
    str_text (t1 ++ t2 ++ t) (65536 + (u - 55296) * 1024 + (v - 56320) :: s)
| s_u t1 u t s : u_text t1 u -> ~ (high u /\ exists t2 v t', t = t2 ++ t' /\ u_text t2 v /\ low v) -> str_text t s -> str_text (t1 ++ t) (u :: s).

(** ** Values *)
Fixpoint firsts (l : list pystr) : list pystr :=
  match l with [] => [] | k :: r => k :: filter (fun x => negb (str_eqb x k)) (firsts r) end.
(** the dictionary of a list of pairs: keys in the order of their first occurrence, last values *)
Definition last_wins (ms kvs : list (pystr * json)) : Prop :=
  map fst kvs = firsts (map fst ms) /\ forall k v, In (k, v) kvs -> exists a b, ms = a ++ (k, v) :: b /\ ~ In k (map fst b).

Section Text.
(** repr(float(t)) *)
Variable float_repr : pystr -> pystr.
Inductive text : pystr -> json -> Prop :=
| t_null : text (lit "null") JNull
| t_true : text (lit "true") (JBool true)
| t_false : text (lit "false") (JBool false)
| t_int neg ds : natural ds -> text (minus neg ++ ds) (JInt (if neg then - decimal_value ds else decimal_value ds)%Z)
| t_float t : float_text t -> text t (JFloat (float_repr t))
| t_nan : text (lit "NaN") (JFloat (lit "nan"))
| t_inf : text (lit "Infinity") (JFloat (lit "inf"))
| t_ninf : text (lit "-Infinity") (JFloat (lit "-inf"))
| t_str t s : str_text t s -> text ([34] ++ t ++ [34]) (JStr s)
| t_list0 w : ws w -> text (lit "[" ++ w ++ lit "]") (JList [])
| t_list t l : items t l -> text (lit "[" ++ t ++ lit "]") (JList l)
| t_obj0 w : ws w -> text (lit "{" ++ w ++ lit "}") (JObj [])
| t_obj t ms kvs : pairs t ms -> last_wins ms kvs -> text (lit "{" ++ t ++ lit "}") (JObj kvs)
with items : pystr -> list json -> Prop :=
| i_one w1 t w2 j : ws w1 -> text t j -> ws w2 -> items (w1 ++ t ++ w2) [j]
| i_more w1 t w2 j t' l : ws w1 -> text t j -> ws w2 -> items t' l -> items (w1 ++ t ++ w2 ++ lit "," ++ t') (j :: l)
with pairs : pystr -> list (pystr * json) -> Prop :=
| p_one w1 k s w2 w3 t w4 j : ws w1 -> str_text k s -> ws w2 -> ws w3 -> text t j -> ws w4 ->
    pairs (w1 ++ [34] ++ k ++ [34] ++ w2 ++ lit ":" ++ w3 ++ t ++ w4) [(s, j)]
| p_more w1 k s w2 w3 t w4 j t' l : ws w1 -> str_text k s -> ws w2 -> ws w3 -> text t j -> ws w4 -> pairs t' l ->
    pairs (w1 ++ [34] ++ k ++ [34] ++ w2 ++ lit ":" ++ w3 ++ t ++ w4 ++ lit "," ++ t') ((s, j) :: l).
Definition json_text (s : pystr) (j : json) : Prop := exists w1 t w2, ws w1 /\ ws w2 /\ s = w1 ++ t ++ w2 /\ text t j.

(** ** Values Python can hold: floats by their repr, strings of characters.  A string with a high
    surrogate followed by a low one is a str of Python but no text denotes it. *)
Definition float_token (r : pystr) : Prop := In r [lit "nan"; lit "inf"; lit "-inf"] \/ (float_text r /\ float_repr r = r).
Definition good_str (s : pystr) : Prop := Forall (fun c => c < 1114112) s /\ forall a u v b, s = a ++ u :: v :: b -> ~ (high u /\ low v).
Inductive good : json -> Prop :=
| g_null : good JNull
| g_bool b : good (JBool b)
| g_int z : good (JInt z)
| g_float r : float_token r -> good (JFloat r)
| g_str s : good_str s -> good (JStr s)
| g_list l : Forall good l -> good (JList l)
| g_obj kvs : NoDup (map fst kvs) -> Forall (fun kv => good_str (fst kv) /\ good (snd kv)) kvs -> good (JObj kvs).
End Text.
