(** Python values as json.load yields them: the common currency of metadata. *)
From Verif Require Import PyStr Dsv.

(** Floats are opaque (their repr); only identity of the token is used.
    Objects are insertion ordered and have distinct keys. *)
Inductive json :=
| JNull
| JBool (b : bool)
| JInt (z : Z)
| JFloat (repr : pystr)
| JStr (s : pystr)
| JList (l : list json)
| JObj (kvs : list (pystr * json)).

Section JsonInd.
Variable P : json -> Prop.
Hypothesis Hnull : P JNull.
Hypothesis Hbool : forall b, P (JBool b).
Hypothesis Hint : forall z, P (JInt z).
Hypothesis Hfloat : forall r, P (JFloat r).
Hypothesis Hstr : forall s, P (JStr s).
Hypothesis Hlist : forall l, Forall P l -> P (JList l).
Hypothesis Hobj : forall kvs, Forall (fun kv => P (snd kv)) kvs -> P (JObj kvs).
Fixpoint json_ind' (j : json) : P j :=
  match j with
  | JNull => Hnull
  | JBool b => Hbool b
  | JInt z => Hint z
  | JFloat r => Hfloat r
  | JStr s => Hstr s
  | JList l => Hlist l ((fix go l : Forall P l :=
                           match l with [] => Forall_nil _ | x :: l' => Forall_cons _ (json_ind' x) (go l') end) l)
  | JObj kvs => Hobj kvs ((fix go l : Forall (fun kv => P (snd kv)) l :=
                           match l with [] => Forall_nil _ | x :: l' => Forall_cons _ (json_ind' (snd x)) (go l') end) kvs)
  end.
End JsonInd.

(** bool(v) *)
Definition truthy (j : json) : bool :=
  match j with
  | JNull => false
  | JBool b => b
  | JInt z => negb (Z.eqb z 0)
  | JFloat r => negb (str_eqb r (lit "0.0") || str_eqb r (lit "-0.0"))
  | JStr s => match s with [] => false | _ => true end
  | JList l => match l with [] => false | _ => true end
  | JObj kvs => match kvs with [] => false | _ => true end
  end.

Definition num_of (j : json) : option Z :=
  match j with JBool b => Some (if b then 1 else 0)%Z | JInt z => Some z | _ => None end.

(** a == b.  True == 1 and False == 0; a float is equal only to the same float
    (simplification: 1 == 1.0 is not modelled); dict equality ignores order. *)
Fixpoint py_eq (a b : json) {struct a} : bool :=
  match a, b with
  | JNull, JNull => true
  | JFloat x, JFloat y => str_eqb x y
  | JStr x, JStr y => str_eqb x y
  | JList l, JList m =>
      (fix go l m := match l, m with
                     | [], [] => true
                     | x :: l', y :: m' => py_eq x y && go l' m'
                     | _, _ => false
                     end) l m
  | JObj d, JObj e =>
      Nat.eqb (length d) (length e) &&
      (fix all d := match d with
                    | [] => true
                    | (k, v) :: d' =>
                        match dget str_eqb e k with Some w => py_eq v w | None => false end && all d'
                    end) d
  | _, _ => match num_of a, num_of b with Some x, Some y => Z.eqb x y | _, _ => false end
  end.

Lemma py_eq_str v s : py_eq v (JStr s) = true -> v = JStr s.
Proof. destruct v; cbn; try discriminate. intros H; apply str_eqb_eq in H; congruence. Qed.
Lemma py_eq_null v : py_eq v JNull = true -> v = JNull.
Proof. destruct v; cbn; try discriminate; reflexivity. Qed.
Lemma py_eq_strs v l : py_eq v (JList (map JStr l)) = true -> v = JList (map JStr l).
Proof.
  destruct v as [| | | | |m|]; cbn; try discriminate. intros H. f_equal.
  revert l H; induction m as [|x m IH]; intros [|s l]; cbn; try discriminate; [reflexivity|].
  intros H; apply andb_true_iff in H; destruct H as [H1 H2].
  apply py_eq_str in H1. subst x. f_equal. apply IH, H2.
Qed.

Lemma json_eq_dec : forall a b : json, {a = b} + {a <> b}.
Proof.
  fix IH 1. intros a b.
  destruct a, b; try (right; discriminate); try (left; reflexivity).
  - destruct (bool_dec b b0); [left|right]; congruence.
  - destruct (Z.eq_dec z z0); [left|right]; congruence.
  - destruct (str_eq_dec repr repr0); [left|right]; congruence.
  - destruct (str_eq_dec s s0); [left|right]; congruence.
  - destruct (list_eq_dec IH l l0); [left|right]; congruence.
  - assert (D : forall x y : pystr * json, {x = y} + {x <> y}).
    { intros [k v] [k' v']. destruct (str_eq_dec k k'); [|right; congruence].
      destruct (IH v v'); [left|right]; congruence. }
    destruct (list_eq_dec D kvs kvs0); [left|right]; congruence.
Defined.
