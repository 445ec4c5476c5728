(** String formats: datatypes.py:86-147, 166-171, 432-477 and the part of Python's re (3.11: re/_parser.py, Modules/_sre) they rely on.
    Simplified: lookaround, named groups, flags, possessive quantifiers, \A \b \B \Z \x \u \N and octal escapes, and back references
    to a complete group are not modelled ([Unsup]).  Lazy and greedy quantifiers accept the same texts. *)
From Verif Require Import PyStr Dec Basic.

(** *** Syntax trees *)
Inductive cclass := KDigit | KSpace | KWord.
Inductive citem := CRange (lo hi : N) | CClass (k : cclass) (neg : bool).
Inductive regex :=
  | RSet (neg : bool) (l : list citem)                 (* one character *)
  | REps
  | RSeq (a b : regex)
  | RAlt (a b : regex)
  | RRep (r : regex) (lo : nat) (more : option nat)    (* lo times and up to [more] times more; None: no limit *)
  | RBol                                               (* ^ *)
  | REol.                                              (* $: at the end, or before a newline at the end *)

(** *** re._parser *)
(** what compiling gives: a tree; re.error; a feature that is not modelled *)
Inductive pres (A : Type) := POk (a : A) | PBad | Unsup.
Arguments POk {A}. Arguments PBad {A}. Arguments Unsup {A}.
Definition pbind {A B} (x : pres A) (f : A -> pres B) : pres B := match x with POk a => f a | PBad => PBad | Unsup => Unsup end.
Notation "'do' p <- x ; y" := (pbind x (fun p => y)) (at level 200, p pattern, x at level 100, y at level 200, right associativity).

(** re/_parser.py CATEGORIES, ESCAPES and _escape/_class_escape, for the character after the backslash *)
Definition class_of (c : N) : option citem :=
  if c =? 100 then Some (CClass KDigit false) else if c =? 68 then Some (CClass KDigit true)
  else if c =? 115 then Some (CClass KSpace false) else if c =? 83 then Some (CClass KSpace true)
  else if c =? 119 then Some (CClass KWord false) else if c =? 87 then Some (CClass KWord true) else None.
Definition control (c : N) : option N :=
  if c =? 97 then Some 7 else if c =? 102 then Some 12 else if c =? 110 then Some 10 else if c =? 114 then Some 13 else if c =? 116 then Some 9 else if c =? 118 then Some 11 else None.
Definition escape_item (c : N) : pres citem :=
  match class_of c with
  | Some i => POk i
  | None => match control c with
            | Some x => POk (CRange x x)
            | None => if is_digit c || char_mem c (lit "xuUNAbBZ") then Unsup else if is_letter c then PBad else POk (CRange c c)
            end
  end.
(** the part of _parse for '[': items up to ']'; the first one may be ']' *)
Fixpoint p_set (n : nat) (first : bool) (s : pystr) : pres (list citem * pystr) :=
  match n with
  | O => Unsup
  | S n =>
      match s with
      | [] => PBad
      | c :: s =>
          if (c =? 93) && negb first then POk ([], s) else
          do (a, s) <- (if c =? 92 then match s with [] => PBad | e :: s => do i <- escape_item e; POk (i, s) end else POk (CRange c c, s));
          match s with
          | d :: s' =>
              if d =? 45 then
                match s' with
                | [] => PBad
                | e :: s'' =>
                    if e =? 93 then POk ([a; CRange 45 45], s'') else
                    do (b, s3) <- (if e =? 92 then match s'' with [] => PBad | f :: s4 => do i <- escape_item f; POk (i, s4) end else POk (CRange e e, s''));
                    match a, b with
                    | CRange lo _, CRange hi _ => if hi <? lo then PBad else do (l, t) <- p_set n false s3; POk (CRange lo hi :: l, t)
                    | _, _ => PBad
                    end
                end
              else do (l, t) <- p_set n false s; POk (a :: l, t)
          | [] => PBad
          end
      end
  end.
(** the part of _parse for '{': {lo}, {lo,}, {,hi}, {lo,hi}; None: a literal brace.  s: what follows the brace *)
Definition p_count (s : pystr) : option (nat * option nat * pystr) :=
  if startswith (lit "}") s then None else
  let (l, s1) := span_digits s in
  let num (x : pystr) := N.to_nat (val_digits x) in
  let lo := match l with [] => O | _ => num l end in
  match s1 with
  | c :: s2 =>
      if c =? 44 then
        let (h, s3) := span_digits s2 in
        match s3 with
        | d :: s4 => if d =? 125 then Some (lo, match h with [] => None | _ => Some (num h) end, s4) else None
        | [] => None
        end
      else if c =? 125 then match l with [] => None | _ => Some (lo, Some lo, s2) end
      else None
  | [] => None
  end.
(** a quantifier at the start of s *)
Definition p_quant (s : pystr) : option (nat * option nat * pystr) :=
  match s with
  | c :: s' => if c =? 42 then Some (O, None, s') else if c =? 43 then Some (1%nat, None, s') else if c =? 63 then Some (O, Some 1%nat, s') else if c =? 123 then p_count s' else None
  | [] => None
  end.
(** the quantifier after an item; lazy: the same texts; possessive: not modelled *)
Definition p_repeat (r : regex) (repeatable : bool) (s : pystr) : pres (regex * pystr) :=
  match p_quant s with
  | None => POk (r, s)
  | Some (lo, hi, t) =>
      if match hi with Some h => (h <? lo)%nat | None => false end then PBad
      else if negb repeatable then PBad
      else let x := RRep r lo (option_map (fun h => h - lo)%nat hi) in
           match t with
           | c :: t' => if c =? 43 then Unsup else if c =? 63 then POk (x, t') else POk (x, t)
           | [] => POk (x, t)
           end
  end.
(** groups: how many have been opened, and which of them are open *)
Definition groups : Type := N * list N.
(** an item without groups; s is not empty and does not start with '(', ')' or '|'.  The bool: may be repeated *)
Definition p_single (g : groups) (s : pystr) : pres (regex * bool * pystr) :=
  match s with
  | [] => PBad
  | c :: s' =>
      if c =? 46 then POk (RSet true [CRange 10 10], true, s')
      else if c =? 94 then POk (RBol, false, s')
      else if c =? 36 then POk (REol, false, s')
      else if c =? 91 then
        match s' with
        | d :: s2 => if d =? 94 then do (l, t) <- p_set (length s') true s2; POk (RSet true l, true, t)
                     else do (l, t) <- p_set (length s') true s'; POk (RSet false l, true, t)
        | [] => PBad
        end
      else if c =? 92 then
        match s' with
        | [] => PBad
        | e :: t =>
            if is_digit e then
              if e =? 48 then Unsup
              else match t with
                   | d :: _ => if is_digit d then Unsup else if existsb (N.eqb (e - 48)) (snd g) then PBad else if fst g <? e - 48 then PBad else Unsup
                   | [] => if existsb (N.eqb (e - 48)) (snd g) then PBad else if fst g <? e - 48 then PBad else Unsup
                   end
            else do i <- escape_item e; POk (RSet false [i], true, t)
        end
      else if (c =? 42) || (c =? 43) || (c =? 63) then PBad
      else if c =? 123 then match p_count s' with Some _ => PBad | None => POk (RSet false [CRange c c], true, s') end
      else POk (RSet false [CRange c c], true, s')
  end.
(** _parse_sub and _parse; n bounds the depth of the recursion *)
Fixpoint p_alt (n : nat) (g : groups) (s : pystr) : pres (regex * pystr * groups) :=
  match n with
  | O => Unsup
  | S n =>
      do (a, s, g) <- p_seq n g s;
      match s with
      | c :: s' => if c =? 124 then do (b, t, g) <- p_alt n g s'; POk (RAlt a b, t, g) else POk (a, s, g)
      | [] => POk (a, s, g)
      end
  end
with p_seq (n : nat) (g : groups) (s : pystr) : pres (regex * pystr * groups) :=
  match n with
  | O => Unsup
  | S n =>
      match s with
      | [] => POk (REps, s, g)
      | c :: s' =>
          if (c =? 124) || (c =? 41) then POk (REps, s, g)
          else do (a, s, g) <- (if c =? 40 then p_group n g s' else do (a, rep, t) <- p_single g s; do (a, t) <- p_repeat a rep t; POk (a, t, g));
               do (b, t, g) <- p_seq n g s; POk (RSeq a b, t, g)
      end
  end
with p_group (n : nat) (g : groups) (s : pystr) : pres (regex * pystr * groups) :=
  match n with
  | O => Unsup
  | S n =>
      let opened := startswith (lit "?") s in
      if opened && negb (startswith (lit "?:") s) then Unsup
      else
        let s := if opened then skipn 2 s else s in
        let k := fst g + 1 in
        do (a, t, g') <- p_alt n (if opened then g else (k, k :: snd g)) s;
        match t with
        | c :: t => if c =? 41 then do (a, t) <- p_repeat a true t; POk (a, t, (fst g', snd g)) else PBad
        | [] => PBad
        end
  end.
(** re.compile *)
Definition re_compile (s : pystr) : pres regex :=
  do (r, t, g) <- p_alt (3 * length s + 3) (0, []) s;
  match t with [] => POk r | _ => PBad end.

(** *** regex.match *)
Section Match.
Variables digit space word : N -> bool.   (* str.isdecimal, str.isspace, str.isalnum or '_' *)
Definition in_class (k : cclass) (c : N) : bool := match k with KDigit => digit c | KSpace => space c | KWord => word c end.
Definition in_item (i : citem) (c : N) : bool := match i with CRange lo hi => (lo <=? c) && (c <=? hi) | CClass k neg => xorb neg (in_class k c) end.
Definition in_set (neg : bool) (l : list citem) (c : N) : bool := xorb neg (existsb (fun i => in_item i c) l).
(** Backtracking: can r match at the start of s, so that k accepts what is left?  start: s is the whole text *)
Fixpoint mtch (r : regex) (start : bool) (s : pystr) (k : bool -> pystr -> bool) : bool :=
  match r with
  | RSet neg l => match s with c :: s' => in_set neg l c && k false s' | [] => false end
  | REps => k start s
  | RSeq a b => mtch a start s (fun st t => mtch b st t k)
  | RAlt a b => mtch a start s k || mtch b start s k
  | RBol => start && k start s
  | REol => match s with [] => k start s | [c] => (c =? 10) && k start s | _ => false end
  | RRep r lo0 more =>
      (fix must (lo : nat) (st : bool) (s : pystr) : bool :=
         match lo with
         | S lo' => mtch r st s (must lo')
         | O => match more with
                | None => (fix many (n : nat) (st : bool) (s : pystr) : bool :=
                             k st s || match n with O => false | S n => mtch r st s (fun st' s' => (length s' <? length s)%nat && many n st' s') end) (length s) st s
                | Some h => (fix upto (n : nat) (st : bool) (s : pystr) : bool :=
                               k st s || match n with O => false | S n => mtch r st s (upto n) end) h st s
                end
         end) lo0 start s
  end.
(** pattern.match(v): not None *)
Definition re_match (r : regex) (v : pystr) : bool := mtch r true v (fun _ _ => true).

(** *** The datatypes.  None: the format uses a feature of re that is not modelled *)
(** datatypes.py:96-105 string.derived_description: the compiled format; an invalid one is dropped with a warning.  Simplified: the format is a str *)
Definition string_regex (fmt : option pystr) : option (option regex) :=
  match fmt with
  | None | Some [] => Some None
  | Some f => match re_compile (lit "(" ++ f ++ lit ")$") with POk r => Some (Some r) | PBad => Some None | Unsup => None end
  end.
(** metadata.py:643-646 Datatype.parse for string and the types that inherit its to_python (datatypes.py:107-111): QName, gDay, gMonth, gMonthDay, gYear, gYearMonth, xml, html *)
Definition string_read (fmt : option pystr) (v : pystr) : option (res pystr) :=
  option_map (fun r => string_to_python (option_map re_match r) v) (string_regex fmt).
(** the same for normalizedString: datatypes.py:882-888 *)
Definition normalized_read (fmt : option pystr) (v : pystr) : option (res pystr) :=
  option_map (fun _ => Ok (norm_to_python v)) (string_regex fmt).
(** and for NMTOKEN: datatypes.py:166-171 *)
Definition nmtoken_read (fmt : option pystr) (v : pystr) : option (res pystr) :=
  option_map (fun r => nmtoken_to_python (option_map re_match r) word v) (string_regex fmt).
(** and for anyURI: datatypes.py:132-135; uri: rfc3986.URIReference.from_string *)
Definition uri_read {U} (uri : pystr -> res U) (fmt : option pystr) (v : pystr) : option (res U) :=
  option_map (fun r => x <- string_to_python (option_map re_match r) v ;; uri x) (string_regex fmt).
(** and for the durations: datatypes.py:446-454; iso: isodate.parse_duration *)
Definition duration_read {D} (iso : pystr -> res D) (fmt : option pystr) (v : pystr) : option (res D) :=
  match fmt with
  | None | Some [] => Some (iso v)
  | Some f => match re_compile f with POk r => Some (if re_match r v then iso v else Err ValueError) | PBad => Some (Err OtherError) | Unsup => None end
  end.
End Match.
