(** The notation of regular expressions: what users write, and the expression each text stands for.  RegexSpec.den: what that matches. *)
From Verif Require Import PyStr Dec Regex RegexSpec.

(** a character: itself, a backslash and a character, or \a \f \n \r \t \v *)
Inductive spelling := Plain (c : N) | Escaped (c : N) | Named (letter code : N).
Definition spell (x : spelling) : pystr := match x with Plain c => [c] | Escaped c => [92; c] | Named l _ => [92; l] end.
Definition code (x : spelling) : N := match x with Plain c | Escaped c | Named _ c => c end.
Definition named_chars : list (N * N) := [(97, 7); (102, 12); (110, 10); (114, 13); (116, 9); (118, 11)].
Definition spelling_ok (special : pystr) (x : spelling) : Prop :=
  match x with Plain c => ~ In c special | Escaped c => is_digit c = false /\ is_letter c = false | Named l c => In (l, c) named_chars end.
(** \d \D \s \S \w \W *)
Definition class_text (k : cclass) (neg : bool) : pystr := item_text (CClass k neg).
(** what is between the brackets of a set *)
Inductive member := MChar (x : spelling) | MRange (lo hi : spelling) | MClass (k : cclass) (neg : bool).
Definition member_text (m : member) : pystr := match m with MChar x => spell x | MRange lo hi => spell lo ++ lit "-" ++ spell hi | MClass k neg => class_text k neg end.
Definition member_item (m : member) : citem := match m with MChar x => CRange (code x) (code x) | MRange lo hi => CRange (code lo) (code hi) | MClass k neg => CClass k neg end.
Definition member_ok (m : member) : Prop :=
  match m with
  | MChar x => spelling_ok (lit "\]^-") x
  | MRange lo hi => spelling_ok (lit "\]^-") lo /\ spelling_ok (lit "\]^-") hi /\ code lo <= code hi
  | MClass _ _ => True
  end.
(** one character; [dash]: a hyphen before the closing bracket *)
Inductive leaf := Dot | Char (x : spelling) | Class (k : cclass) (neg : bool) | Set_ (neg : bool) (l : list member) (dash : bool).
Definition leaf_text (a : leaf) : pystr :=
  match a with
  | Dot => lit "."
  | Char x => spell x
  | Class k neg => class_text k neg
  | Set_ neg l dash => lit "[" ++ (if neg then lit "^" else []) ++ concat (map member_text l) ++ (if dash then lit "-" else []) ++ lit "]"
  end.
Definition leaf_regex (a : leaf) : regex :=
  match a with
  | Dot => RSet true [CRange 10 10]                  (* any character but newline *)
  | Char x => RSet false [CRange (code x) (code x)]
  | Class k neg => RSet false [CClass k neg]
  | Set_ neg l dash => RSet neg (map member_item l ++ if dash then [CRange 45 45] else [])
  end.
Definition leaf_ok (a : leaf) : Prop :=
  match a with
  | Char x => spelling_ok (lit "\.^$*+?{[|()") x
  | Set_ _ l dash => (forall m, In m l -> member_ok m) /\ (l <> [] \/ dash = true)
  | _ => True
  end.
(** quantifiers; each may be lazy: the same texts match *)
Inductive quantity := Star | Plus | Opt | Exactly (n : nat) | AtLeast (n : nat) | AtMost (n : nat) | Between (n m : nat).
Definition quant : Type := option (quantity * bool).
Definition count (n : nat) : pystr := digits_of (N.of_nat n).
Definition quant_text (q : quant) : pystr :=
  match q with
  | None => []
  | Some (q, lazy) =>
      match q with
      | Star => lit "*" | Plus => lit "+" | Opt => lit "?"
      | Exactly n => lit "{" ++ count n ++ lit "}" | AtLeast n => lit "{" ++ count n ++ lit ",}" | AtMost n => lit "{," ++ count n ++ lit "}"
      | Between n m => lit "{" ++ count n ++ lit "," ++ count m ++ lit "}"
      end ++ if lazy then lit "?" else []
  end.
Definition quant_regex (q : quant) (r : regex) : regex :=
  match q with
  | None => r
  | Some (q, _) =>
      match q with
      | Star => RRep r 0 None | Plus => RRep r 1 None | Opt => RRep r 0 (Some 1%nat)
      | Exactly n => RRep r n (Some 0%nat) | AtLeast n => RRep r n None | AtMost n => RRep r 0 (Some n) | Between n m => RRep r n (Some (m - n)%nat)
      end
  end.
Definition quant_ok (q : quant) : Prop := match q with Some (Between n m, _) => (n <= m)%nat | _ => True end.
(** alternatives, sequences and their parts *)
Inductive alts := One (b : branch) | Or (b : branch) (a : alts)
with branch := Done | Then (p : piece) (b : branch)
with piece := Leaf (a : leaf) (q : quant) | Bol | Eol | Group (captures : bool) (a : alts) (q : quant).
Fixpoint alts_text (a : alts) : pystr := match a with One b => branch_text b | Or b a => branch_text b ++ lit "|" ++ alts_text a end
with branch_text (b : branch) : pystr := match b with Done => [] | Then p b => piece_text p ++ branch_text b end
with piece_text (p : piece) : pystr :=
  match p with
  | Leaf a q => leaf_text a ++ quant_text q
  | Bol => lit "^"
  | Eol => lit "$"
  | Group captures a q => (if captures then lit "(" else lit "(?:") ++ alts_text a ++ lit ")" ++ quant_text q
  end.
Fixpoint alts_regex (a : alts) : regex := match a with One b => branch_regex b | Or b a => RAlt (branch_regex b) (alts_regex a) end
with branch_regex (b : branch) : regex := match b with Done => REps | Then p b => RSeq (piece_regex p) (branch_regex b) end
with piece_regex (p : piece) : regex :=
  match p with Leaf a q => quant_regex q (leaf_regex a) | Bol => RBol | Eol => REol | Group _ a q => quant_regex q (alts_regex a) end.
Fixpoint alts_ok (a : alts) : Prop := match a with One b => branch_ok b | Or b a => branch_ok b /\ alts_ok a end
with branch_ok (b : branch) : Prop := match b with Done => True | Then p b => piece_ok p /\ branch_ok b end
with piece_ok (p : piece) : Prop := match p with Leaf a q => leaf_ok a /\ quant_ok q | Bol | Eol => True | Group _ a q => alts_ok a /\ quant_ok q end.
