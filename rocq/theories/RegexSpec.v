(** What a regular expression means. *)
From Verif Require Import PyStr Dec Regex.

Section Spec.
Variables digit space word : N -> Prop.   (* the characters of \d, \s and \w *)
Definition class_chars (k : cclass) : N -> Prop := match k with KDigit => digit | KSpace => space | KWord => word end.
Definition item_chars (i : citem) (c : N) : Prop := match i with CRange lo hi => lo <= c <= hi | CClass k false => class_chars k c | CClass k true => ~ class_chars k c end.
Definition set_chars (neg : bool) (l : list citem) (c : N) : Prop := if neg then forall i, In i l -> ~ item_chars i c else exists i, In i l /\ item_chars i c.
(** P n times in a row *)
Fixpoint times (P : pystr -> pystr -> pystr -> Prop) (n : nat) (before w after : pystr) : Prop :=
  match n with
  | O => w = []
  | S n => exists w1 w2, w = w1 ++ w2 /\ P before w1 (w2 ++ after) /\ times P n (before ++ w1) w2 after
  end.
(** r matches w between [before] and [after] *)
Fixpoint den (r : regex) (before w after : pystr) : Prop :=
  match r with
  | RSet neg l => exists c, w = [c] /\ set_chars neg l c
  | REps => w = []
  | RSeq a b => exists w1 w2, w = w1 ++ w2 /\ den a before w1 (w2 ++ after) /\ den b (before ++ w1) w2 after
  | RAlt a b => den a before w after \/ den b before w after
  | RRep r lo more => exists n, match more with Some x => (n <= x)%nat | None => True end /\ times (den r) (lo + n) before w after
  | RBol => w = [] /\ before = []
  | REol => w = [] /\ (after = [] \/ after = [10])
  end.
End Spec.
(** A text for every expression *)
Definition esc (c : N) : pystr := if is_digit c || is_letter c then [c] else [92; c].
Definition item_text (i : citem) : pystr :=
  match i with
  | CRange lo hi => esc lo ++ [45] ++ esc hi
  | CClass KDigit neg => if neg then lit "\D" else lit "\d"
  | CClass KSpace neg => if neg then lit "\S" else lit "\s"
  | CClass KWord neg => if neg then lit "\W" else lit "\w"
  end.
Fixpoint regex_text (r : regex) : pystr :=
  lit "(?:" ++
  match r with
  | RSet neg l => lit "[" ++ (if neg then lit "^" else []) ++ concat (map item_text l) ++ lit "]"
  | REps => []
  | RSeq a b => regex_text a ++ regex_text b
  | RAlt a b => regex_text a ++ lit "|" ++ regex_text b
  | RRep r lo more => regex_text r ++ lit "{" ++ digits_of (N.of_nat lo) ++ lit "," ++ match more with Some x => digits_of (N.of_nat (lo + x)) | None => [] end ++ lit "}"
  | RBol => lit "^"
  | REol => lit "$"
  end ++ lit ")".
(** sets are not empty, and ranges are in order *)
Fixpoint sound (r : regex) : Prop :=
  match r with
  | RSet _ l => l <> [] /\ forall lo hi, In (CRange lo hi) l -> lo <= hi
  | RSeq a b | RAlt a b => sound a /\ sound b
  | RRep r _ _ => sound r
  | _ => True
  end.
