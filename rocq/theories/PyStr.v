(** Python [str] and other basic values, as used by csvw.

    A Python [str] is a [list N] of code points.  Exceptions are values.
    Everything in this file models CPython built-ins ("stdlib", trusted),
    not code in /repo; where a definition exists only because one particular
    place of /repo needs it, that place is cited. *)
From Coq Require Export List NArith ZArith Lia Bool Arith.
From Coq Require String Ascii.
Export (notations) Coq.Strings.String.
Export ListNotations.
Open Scope N_scope.

Definition pystr := list N.

(** ASCII literals: [lit "abc"] is the Python literal ['abc']. *)
Fixpoint lit (s : String.string) : pystr :=
  match s with
  | String.EmptyString => []
  | String.String a s' => Ascii.N_of_ascii a :: lit s'
  end.
Arguments lit s%string.

(** Python exceptions which the modelled code raises, catches or lets pass. *)
Inductive exn :=
| ValueError | TypeError | KeyError | AttributeError | IndexError
| AssertionError | OverflowError | CsvError | IntegrityError | LookupError
| DecimalInvalid | OtherError.

Inductive res (A : Type) := Ok (a : A) | Err (e : exn).
Arguments Ok {A}. Arguments Err {A}.

Definition bind {A B} (x : res A) (f : A -> res B) : res B :=
  match x with Ok a => f a | Err e => Err e end.
Notation "x <- e ;; f" := (bind e (fun x => f))
  (at level 61, e at next level, right associativity).

Definition is_ok {A} (x : res A) : bool :=
  match x with Ok _ => true | Err _ => false end.

(** list comprehension whose body may raise *)
Fixpoint mapM {A B} (f : A -> res B) (l : list A) : res (list B) :=
  match l with
  | [] => Ok []
  | a :: l' => b <- f a ;; bs <- mapM f l' ;; Ok (b :: bs)
  end.

(** ** Equality *)
Fixpoint str_eqb (a b : pystr) : bool :=
  match a, b with
  | [], [] => true
  | x :: a', y :: b' => (x =? y) && str_eqb a' b'
  | _, _ => false
  end.

Lemma str_eqb_spec a b : reflect (a = b) (str_eqb a b).
Proof.
  revert b; induction a as [|x a IH]; intros [|y b]; cbn;
    try (constructor; congruence).
  destruct (N.eqb_spec x y) as [->|Hn]; cbn; [|constructor; congruence].
  destruct (IH b) as [->|Hn]; constructor; congruence.
Qed.
Lemma str_eqb_refl a : str_eqb a a = true.
Proof. destruct (str_eqb_spec a a); congruence. Qed.
Lemma str_eqb_eq a b : str_eqb a b = true <-> a = b.
Proof. destruct (str_eqb_spec a b); split; congruence. Qed.
Lemma str_eqb_neq a b : str_eqb a b = false <-> a <> b.
Proof. destruct (str_eqb_spec a b); split; congruence. Qed.
Definition str_eq_dec (a b : pystr) : {a = b} + {a <> b} := list_eq_dec N.eq_dec a b.

Definition str_mem (s : pystr) (l : list pystr) : bool := existsb (str_eqb s) l.
Lemma str_mem_In s l : str_mem s l = true <-> In s l.
Proof.
  unfold str_mem; rewrite existsb_exists; split.
  - intros (x & Hx & He); apply str_eqb_eq in He; congruence.
  - intros H; exists s; split; [exact H|apply str_eqb_refl].
Qed.
Lemma str_mem_false s l : str_mem s l = false <-> ~ In s l.
Proof. rewrite <- str_mem_In; destruct (str_mem s l); split; congruence. Qed.

Definition char_mem (c : N) (l : list N) : bool := existsb (N.eqb c) l.
Lemma char_mem_In c l : char_mem c l = true <-> In c l.
Proof.
  unfold char_mem; rewrite existsb_exists; split.
  - intros (x & Hx & He); apply N.eqb_eq in He; congruence.
  - intros H; exists c; split; [exact H|apply N.eqb_refl].
Qed.
Lemma char_mem_false c l : char_mem c l = false <-> ~ In c l.
Proof. rewrite <- char_mem_In; destruct (char_mem c l); split; congruence. Qed.

(** ** Characters *)
Definition LF : N := 10.
Definition CR : N := 13.
Definition TAB : N := 9.
Definition SPACE : N := 32.
Definition BOM : N := 65279.

(** [str.isspace] code points: what [str.strip()] and [str.split()] without
    arguments and [\s] in [re] treat as white space (CPython's
    _PyUnicode_IsWhitespace). *)
Definition is_space (c : N) : bool :=
  ((9 <=? c) && (c <=? 13)) || ((28 <=? c) && (c <=? 32)) || (c =? 133)
  || (c =? 160) || (c =? 5760) || ((8192 <=? c) && (c <=? 8202))
  || (c =? 8232) || (c =? 8233) || (c =? 8239) || (c =? 8287) || (c =? 12288).

Definition is_digit (c : N) : bool := (48 <=? c) && (c <=? 57).
Definition is_upper (c : N) : bool := (65 <=? c) && (c <=? 90).
Definition is_lower (c : N) : bool := (97 <=? c) && (c <=? 122).
Definition is_letter (c : N) : bool := is_upper c || is_lower c.

(** ** Methods *)
Fixpoint startswith (p s : pystr) : bool :=
  match p, s with
  | [], _ => true
  | x :: p', y :: s' => (x =? y) && startswith p' s'
  | _, _ => false
  end.
Definition endswith (p s : pystr) : bool := startswith (rev p) (rev s).

Lemma startswith_spec p s : startswith p s = true <-> exists r, s = p ++ r.
Proof.
  revert s; induction p as [|x p IH]; intros s; cbn.
  - split; [intros _; exists s; reflexivity|reflexivity].
  - destruct s as [|y s]; [split; [discriminate|intros [r Hr]; discriminate]|].
    rewrite andb_true_iff, N.eqb_eq, IH; split.
    + intros [-> [r ->]]; exists r; reflexivity.
    + intros [r Hr]; injection Hr as -> ->; split; [reflexivity|exists r; reflexivity].
Qed.

Fixpoint lstrip_by (p : N -> bool) (s : pystr) : pystr :=
  match s with
  | [] => []
  | c :: s' => if p c then lstrip_by p s' else s
  end.
Definition rstrip_by (p : N -> bool) (s : pystr) : pystr := rev (lstrip_by p (rev s)).
Definition strip_by (p : N -> bool) (s : pystr) : pystr := rstrip_by p (lstrip_by p s).
Definition lstrip := lstrip_by is_space.
Definition rstrip := rstrip_by is_space.
Definition strip := strip_by is_space.

(** [s.replace(old, new)] for non-empty [old] *)
Fixpoint replace_aux (old new s : pystr) (skip : nat) : pystr :=
  match s with
  | [] => []
  | c :: s' =>
      match skip with
      | S k => replace_aux old new s' k
      | O => if startswith old s then new ++ replace_aux old new s' (List.length old - 1)
             else c :: replace_aux old new s' 0
      end
  end.
Definition replace (old new s : pystr) : pystr := replace_aux old new s 0.

(** [s.replace(c, new)] for a single character [c] *)
Definition replace1 (c : N) (new s : pystr) : pystr :=
  flat_map (fun x => if x =? c then new else [x]) s.

Lemma replace_one c new s : replace [c] new s = replace1 c new s.
Proof.
  unfold replace, replace1.
  induction s as [|x s IH]; [reflexivity|].
  cbn [replace_aux startswith flat_map List.length Nat.sub].
  rewrite andb_true_r, (N.eqb_sym c x); destruct (x =? c); cbn; rewrite IH; reflexivity.
Qed.

(** [sep.join(parts)] *)
Fixpoint join (sep : pystr) (parts : list pystr) : pystr :=
  match parts with
  | [] => []
  | [p] => p
  | p :: ps => p ++ sep ++ join sep ps
  end.

(** [s.split(sep)] for non-empty [sep] *)
Fixpoint split_aux (sep cur s : pystr) (skip : nat) : list pystr :=
  match s with
  | [] => [cur]
  | c :: s' =>
      match skip with
      | S k => split_aux sep cur s' k
      | O => if startswith sep s then cur :: split_aux sep [] s' (List.length sep - 1)
             else split_aux sep (cur ++ [c]) s' 0
      end
  end.
Definition split (sep s : pystr) : list pystr := split_aux sep [] s 0.

(** [s.split()] : maximal runs of non-space characters *)
Fixpoint split_ws_aux (cur s : pystr) : list pystr :=
  match s with
  | [] => match cur with [] => [] | _ => [cur] end
  | c :: s' => if is_space c
               then match cur with [] => split_ws_aux [] s' | _ => cur :: split_ws_aux [] s' end
               else split_ws_aux (cur ++ [c]) s'
  end.
Definition split_ws (s : pystr) : list pystr := split_ws_aux [] s.

(** [sub in s] *)
Fixpoint contains (sub s : pystr) : bool :=
  startswith sub s || match s with [] => false | _ :: s' => contains sub s' end.

Definition count_char (c : N) (s : pystr) : nat :=
  List.length (filter (N.eqb c) s).

(** ASCII part of [str.lower]/[str.upper] *)
Definition lower1 (c : N) : N := if is_upper c then c + 32 else c.
Definition upper1 (c : N) : N := if is_lower c then c - 32 else c.
Definition ascii_lower (s : pystr) : pystr := map lower1 s.
Definition ascii_upper (s : pystr) : pystr := map upper1 s.

(** ** Lemmas on split and join *)
Lemma split_aux_nosep c cur s rest :
  ~ In c s ->
  split_aux [c] cur (s ++ rest) 0 =
  split_aux [c] (cur ++ s) rest 0.
Proof.
  revert cur; induction s as [|x s IH]; intros cur Hn.
  - rewrite app_nil_r; reflexivity.
  - cbn [app split_aux startswith List.length Nat.sub].
    destruct (N.eqb_spec c x) as [->|Hx]; [exfalso; apply Hn; left; reflexivity|].
    cbn [andb]. rewrite IH by (intro H; apply Hn; right; exact H).
    rewrite <- app_assoc; reflexivity.
Qed.

(** joining parts free of the separator character and splitting again *)
Lemma split_join1 c parts :
  parts <> [] -> (forall p, In p parts -> ~ In c p) ->
  split [c] (join [c] parts) = parts.
Proof.
  unfold split. induction parts as [|p [|q ps] IH]; intros Hne Hp; [congruence| |].
  - cbn [join]. rewrite <- (app_nil_r p) at 1. rewrite split_aux_nosep by (apply Hp; left; reflexivity).
    reflexivity.
  - change (join [c] (p :: q :: ps)) with (p ++ [c] ++ join [c] (q :: ps)).
    rewrite split_aux_nosep by (apply Hp; left; reflexivity).
    cbn [app split_aux startswith List.length Nat.sub]. rewrite N.eqb_refl; cbn [andb].
    f_equal. apply IH; [discriminate|intros r Hr; apply Hp; right; exact Hr].
Qed.

Lemma lstrip_by_app p a b : forallb p a = true -> lstrip_by p (a ++ b) = lstrip_by p b.
Proof.
  induction a as [|x a IH]; cbn; [reflexivity|].
  intros H; apply andb_true_iff in H; destruct H as [-> H]; apply IH, H.
Qed.
Lemma lstrip_by_stop p x s : p x = false -> lstrip_by p (x :: s) = x :: s.
Proof. cbn; intros ->; reflexivity. Qed.
Lemma lstrip_by_spec p s :
  exists a, s = a ++ lstrip_by p s /\ forallb p a = true /\
            match lstrip_by p s with [] => True | c :: _ => p c = false end.
Proof.
  induction s as [|c s (a & He & Ha & Hs)].
  - exists []; repeat split.
  - cbn; destruct (p c) eqn:Hc.
    + exists (c :: a); cbn; rewrite Hc, <- He; repeat split; assumption.
    + exists []; repeat split; assumption.
Qed.
Lemma lstrip_by_idem p s : lstrip_by p (lstrip_by p s) = lstrip_by p s.
Proof.
  destruct (lstrip_by_spec p s) as (a & _ & _ & H).
  destruct (lstrip_by p s) as [|c r]; [reflexivity|]. apply lstrip_by_stop, H.
Qed.

(** ** mapM *)
Lemma mapM_map {A B C} (f : B -> res C) (g : A -> B) l :
  mapM f (map g l) = mapM (fun a => f (g a)) l.
Proof. induction l as [|a l IH]; cbn; [reflexivity|]. rewrite IH; reflexivity. Qed.
Lemma mapM_Ok {A B} (f : A -> res B) (g : A -> B) l :
  (forall a, In a l -> f a = Ok (g a)) -> mapM f l = Ok (map g l).
Proof.
  induction l as [|a l IH]; intros H; cbn; [reflexivity|].
  rewrite (H a (or_introl eq_refl)), IH by (intros x Hx; apply H; right; exact Hx).
  reflexivity.
Qed.
Lemma mapM_app {A B} (f : A -> res B) l1 l2 :
  mapM f (l1 ++ l2) = (a <- mapM f l1 ;; b <- mapM f l2 ;; Ok (a ++ b)).
Proof.
  induction l1 as [|a l1 IH]; cbn.
  - destruct (mapM f l2); reflexivity.
  - destruct (f a) as [b|e]; cbn; [|reflexivity]. rewrite IH.
    destruct (mapM f l1) as [x|e]; cbn; [|reflexivity].
    destruct (mapM f l2); reflexivity.
Qed.
Lemma mapM_Ok_inv {A B} (f : A -> res B) l bs :
  mapM f l = Ok bs -> Forall2 (fun a b => f a = Ok b) l bs.
Proof.
  revert bs; induction l as [|a l IH]; intros bs H; cbn in H.
  - injection H as <-; constructor.
  - destruct (f a) as [b|e] eqn:Hf; cbn in H; [|discriminate].
    destruct (mapM f l) as [x|e] eqn:Hm; cbn in H; [|discriminate].
    injection H as <-; constructor; [exact Hf|apply IH; reflexivity].
Qed.
Lemma mapM_Ok_iff {A B} (f : A -> res B) l bs :
  mapM f l = Ok bs <-> Forall2 (fun a b => f a = Ok b) l bs.
Proof.
  split; [apply mapM_Ok_inv|].
  induction 1 as [|a b l bs Hf _ IH]; cbn; [reflexivity|].
  rewrite Hf, IH; reflexivity.
Qed.
Lemma Forall2_length {A B} (R : A -> B -> Prop) l m : Forall2 R l m -> List.length l = List.length m.
Proof. induction 1; cbn; congruence. Qed.
Lemma Ok_inj {A} (a b : A) : Ok a = Ok b -> a = b.
Proof. congruence. Qed.
