(** The part of SQLite's SQL that db.py uses: tokens, statements, and a parser.  This is a specification of external
    code (SQLite's tokenizer and grammar, https://www.sqlite.org/lang.html), not a model of code in /repo.
    Simplifications: no double-quoted or bracketed identifiers, no /* */ comments, no blob literals; a parse
    error is [None].  Keywords are matched in upper case (words are folded by the tokenizer). *)
From Verif Require Import PyStr.

(** ** Tokens *)
Inductive tok :=
| TId (s : pystr)   (* `name`, with `` standing for one backtick *)
| TWord (s : pystr) (* keyword or bare name, in upper case *)
| TStr (s : pystr)  (* 'text', with '' standing for one quote *)
| TNum (s : pystr)
| TOp (c : N)       (* c followed by = *)
| TPunct (c : N)
| TBad.             (* an unterminated identifier or string *)
Definition BT : N := 96.
Definition QT : N := 39.
Definition up1 (c : N) : N := if is_lower c then c - 32 else c.
Definition word_char (c : N) : bool := is_letter c || is_digit c || (c =? 95) || (c =? 36) || (128 <=? c).
(** a number goes on with letters, digits and points, and a sign after an E *)
Definition num_char (acc : pystr) (c : N) : bool :=
  word_char c || (c =? 46) || (((c =? 43) || (c =? 45)) && match rev acc with e :: _ => (e =? 69) || (e =? 101) | [] => false end).

Inductive lstate := LStart | LId (acc : pystr) | LTick (acc : pystr) | LStr (acc : pystr) | LQuote (acc : pystr)
| LWord (acc : pystr) | LNum (acc : pystr) | LAngle (c : N) | LDash | LComment.
Definition start (c : N) : list tok * lstate :=
  if c =? BT then ([], LId [])
  else if c =? QT then ([], LStr [])
  else if (c =? 32) || (c =? 9) || (c =? 10) || (c =? 12) || (c =? 13) then ([], LStart)
  else if c =? 45 then ([], LDash)
  else if (c =? 60) || (c =? 62) then ([], LAngle c)
  else if is_digit c then ([], LNum [c])
  else if word_char c then ([], LWord [c])
  else ([TPunct c], LStart).
Definition flush (st : lstate) : list tok :=
  match st with
  | LStart | LComment => []
  | LId _ | LStr _ => [TBad]
  | LTick acc => [TId acc]
  | LQuote acc => [TStr acc]
  | LWord acc => [TWord (map up1 acc)]
  | LNum acc => [TNum acc]
  | LAngle c => [TPunct c]
  | LDash => [TPunct 45]
  end.
(** does [c] end the token under way? *)
Definition breaks (st : lstate) (c : N) : bool :=
  match st with
  | LStart => true
  | LId _ | LStr _ | LComment => false
  | LTick _ => negb (c =? BT)
  | LQuote _ => negb (c =? QT)
  | LWord _ => negb (word_char c)
  | LNum acc => negb (num_char acc c)
  | LAngle _ => negb (c =? 61)
  | LDash => negb (c =? 45)
  end.
Definition step (st : lstate) (c : N) : list tok * lstate :=
  if breaks st c then let (t, st') := start c in (flush st ++ t, st')
  else match st with
       | LStart => start c (* not here *)
       | LId acc => if c =? BT then ([], LTick acc) else ([], LId (acc ++ [c]))
       | LTick acc => ([], LId (acc ++ [c]))
       | LStr acc => if c =? QT then ([], LQuote acc) else ([], LStr (acc ++ [c]))
       | LQuote acc => ([], LStr (acc ++ [c]))
       | LWord acc => ([], LWord (acc ++ [c]))
       | LNum acc => ([], LNum (acc ++ [c]))
       | LAngle a => ([TOp a], LStart)
       | LDash => ([], LComment)
       | LComment => ([], if c =? 10 then LStart else LComment)
       end.
Fixpoint run (st : lstate) (s : pystr) : list tok * lstate :=
  match s with
  | [] => ([], st)
  | c :: s' => let (t, st') := step st c in let (t', st'') := run st' s' in (t ++ t', st'')
  end.
Definition lex (s : pystr) : list tok := let (t, st) := run LStart s in t ++ flush st.
Definition final (s : pystr) : lstate := snd (run LStart s).
(** sqlite3 refuses SQL text with a null character *)
Definition tokens (s : pystr) : option (list tok) := if char_mem 0 s then None else Some (lex s).

(** ** Statements *)
Inductive sqltype := TEXT | INTEGER | REAL | BLOB.
(** operands of a comparison: a column, a string, a number (negative?), the date() etc. of one of these *)
Inductive operand := OCol (c : pystr) | OStr (s : pystr) | ONum (neg : bool) (s : pystr) | OFun (f : pystr) (o : operand).
Inductive cmp := Ge | Le | EqS.
Record atom := { at_l : operand; at_op : cmp; at_r : operand }.
Record coldef := { cd_name : pystr; cd_type : sqltype; cd_notnull : bool; cd_check : list atom (* a conjunction *) }.
Definition fkdef : Type := list pystr * pystr * list pystr.
Inductive stmt :=
| SCreate (name : pystr) (cols : list coldef) (pk : list pystr) (fks : list fkdef) (* IF NOT EXISTS *)
| SInsert (name : pystr) (cols : list pystr) (params : nat)
| SSelectAll (name : pystr)
| SGroup (key val name : pystr) (context : option pystr).

(** ** Parser *)
Definition is_w (w : pystr) (t : tok) : bool := match t with TWord x => str_eqb x w | _ => false end.
Definition is_p (c : N) (t : tok) : bool := match t with TPunct x => c =? x | _ => false end.
(** expect a sequence of tokens *)
Fixpoint expect (ps : list (tok -> bool)) (ts : list tok) : option (list tok) :=
  match ps, ts with
  | [], _ => Some ts
  | p :: ps', t :: ts' => if p t then expect ps' ts' else None
  | _ :: _, [] => None
  end.
Definition W (s : pystr) := is_w s.
Definition P (c : N) := is_p c.
Definition obind {A B} (x : option A) (f : A -> option B) : option B := match x with Some a => f a | None => None end.
Notation "x <~ e ;; f" := (obind e (fun x => f)) (at level 61, e at next level, right associativity).
Definition p_id (ts : list tok) : option (pystr * list tok) := match ts with TId x :: r => Some (x, r) | _ => None end.
Fixpoint p_ids (ts : list tok) : option (list pystr * list tok) :=
  match ts with
  | TId x :: TPunct 44 :: r => match p_ids r with Some (xs, r') => Some (x :: xs, r') | None => None end
  | TId x :: r => Some ([x], r)
  | _ => None
  end.
(** ( names ) *)
Definition p_names (ts : list tok) : option (list pystr * list tok) :=
  r <~ expect [P 40] ts ;; x <~ p_ids r ;; r' <~ expect [P 41] (snd x) ;; Some (fst x, r').
Fixpoint p_params (ts : list tok) : option (nat * list tok) :=
  match ts with
  | TPunct 63 :: TPunct 44 :: r => match p_params r with Some (n, r') => Some (S n, r') | None => None end
  | TPunct 63 :: r => Some (1%nat, r)
  | _ => None
  end.
Definition p_type (ts : list tok) : option (sqltype * list tok) :=
  match ts with
  | TWord w :: r => if str_eqb w (lit "TEXT") then Some (TEXT, r)
                    else if str_eqb w (lit "INTEGER") then Some (INTEGER, r)
                    else if str_eqb w (lit "REAL") then Some (REAL, r)
                    else if str_eqb w (lit "BLOB") then Some (BLOB, r) else None
  | _ => None
  end.
Definition p_operand0 (ts : list tok) : option (operand * list tok) :=
  match ts with
  | TId x :: r => Some (OCol x, r)
  | TStr s :: r => Some (OStr s, r)
  | TNum s :: r => Some (ONum false s, r)
  | TPunct 45 :: TNum s :: r => Some (ONum true s, r)
  | _ => None
  end.
Definition p_operand (ts : list tok) : option (operand * list tok) :=
  match ts with
  | TWord f :: TPunct 40 :: r => x <~ p_operand0 r ;; r' <~ expect [P 41] (snd x) ;; Some (OFun f (fst x), r')
  | _ => p_operand0 ts
  end.
Definition p_cmp (ts : list tok) : option (cmp * list tok) :=
  match ts with
  | TOp 62 :: r => Some (Ge, r)
  | TOp 60 :: r => Some (Le, r)
  | TPunct 61 :: r => Some (EqS, r)
  | _ => None
  end.
Definition p_atom (ts : list tok) : option (atom * list tok) :=
  a <~ p_operand ts ;; o <~ p_cmp (snd a) ;; b <~ p_operand (snd o) ;;
  Some ({| at_l := fst a; at_op := fst o; at_r := fst b |}, snd b).
(** atom AND atom ... *)
Fixpoint p_conj (fuel : nat) (ts : list tok) : option (list atom * list tok) :=
  match fuel with
  | O => None
  | S k =>
      a <~ p_atom ts ;;
      match expect [W (lit "AND")] (snd a) with
      | Some r => x <~ p_conj k r ;; Some (fst a :: fst x, snd x)
      | None => Some ([fst a], snd a)
      end
  end.
Definition p_coldef (ts : list tok) : option (coldef * list tok) :=
  n <~ p_id ts ;;
  t <~ p_type (snd n) ;;
  let (notnull, r1) := match expect [W (lit "NOT"); W (lit "NULL")] (snd t) with Some r => (true, r) | None => (false, snd t) end in
  match expect [W (lit "CHECK"); P 40] r1 with
  | Some r2 => c <~ p_conj (length r2) r2 ;; r3 <~ expect [P 41] (snd c) ;;
               Some ({| cd_name := fst n; cd_type := fst t; cd_notnull := notnull; cd_check := fst c |}, r3)
  | None => Some ({| cd_name := fst n; cd_type := fst t; cd_notnull := notnull; cd_check := [] |}, r1)
  end.
(** column definitions, separated by commas; a comma before a table constraint is left *)
Fixpoint p_coldefs (fuel : nat) (ts : list tok) : option (list coldef * list tok) :=
  match fuel with
  | O => None
  | S k =>
      c <~ p_coldef ts ;;
      match snd c with
      | TPunct 44 :: TId n :: r => x <~ p_coldefs k (TId n :: r) ;; Some (fst c :: fst x, snd x)
      | r => Some ([fst c], r)
      end
  end.
Definition p_pk (ts : list tok) : option (list pystr * list tok) :=
  match expect [P 44; W (lit "PRIMARY"); W (lit "KEY")] ts with Some r => p_names r | None => Some ([], ts) end.
Fixpoint p_fks (fuel : nat) (ts : list tok) : option (list fkdef * list tok) :=
  match expect [P 44; W (lit "FOREIGN"); W (lit "KEY")] ts with
  | None => Some ([], ts)
  | Some r =>
      match fuel with
      | O => None
      | S k =>
          c <~ p_names r ;; r1 <~ expect [W (lit "REFERENCES")] (snd c) ;; t <~ p_id r1 ;; rc <~ p_names (snd t) ;;
          r2 <~ expect [W (lit "ON"); W (lit "DELETE"); W (lit "CASCADE")] (snd rc) ;;
          x <~ p_fks k r2 ;; Some ((fst c, fst t, fst rc) :: fst x, snd x)
      end
  end.
Definition p_end (ts : list tok) : option unit := match ts with [] => Some tt | _ => None end.
Definition p_create (ts : list tok) : option stmt :=
  r <~ expect [W (lit "CREATE"); W (lit "TABLE"); W (lit "IF"); W (lit "NOT"); W (lit "EXISTS")] ts ;;
  n <~ p_id r ;; r1 <~ expect [P 40] (snd n) ;;
  c <~ p_coldefs (length r1) r1 ;; pk <~ p_pk (snd c) ;; f <~ p_fks (length (snd pk)) (snd pk) ;;
  r2 <~ expect [P 41] (snd f) ;; _ <~ p_end r2 ;;
  Some (SCreate (fst n) (fst c) (fst pk) (fst f)).
Definition p_insert (ts : list tok) : option stmt :=
  r <~ expect [W (lit "INSERT"); W (lit "INTO")] ts ;;
  n <~ p_id r ;; c <~ p_names (snd n) ;; r1 <~ expect [W (lit "VALUES"); P 40] (snd c) ;;
  k <~ p_params r1 ;; r2 <~ expect [P 41] (snd k) ;; _ <~ p_end r2 ;;
  Some (SInsert (fst n) (fst c) (fst k)).
Definition p_select_all (ts : list tok) : option stmt :=
  r <~ expect [W (lit "SELECT"); P 42; W (lit "FROM")] ts ;;
  n <~ p_id r ;; _ <~ p_end (snd n) ;; Some (SSelectAll (fst n)).
Definition S_ (s : pystr) (t : tok) : bool := match t with TStr x => str_eqb x s | _ => false end.
(** SELECT `k`, group_concat(`v`, ' '), group_concat(COALESCE(context, ''), '||') FROM `t` [WHERE context = 'c'] GROUP BY `k` *)
Definition p_group (ts : list tok) : option stmt :=
  r <~ expect [W (lit "SELECT")] ts ;; k <~ p_id r ;;
  r1 <~ expect [P 44; W (lit "GROUP_CONCAT"); P 40] (snd k) ;; v <~ p_id r1 ;;
  r2 <~ expect [P 44; S_ (lit " "); P 41; P 44; W (lit "GROUP_CONCAT"); P 40; W (lit "COALESCE"); P 40; W (lit "CONTEXT"); P 44; S_ [];
                P 41; P 44; S_ (lit "||"); P 41; W (lit "FROM")] (snd v) ;;
  n <~ p_id r2 ;;
  let (ctx, r3) := match expect [W (lit "WHERE"); W (lit "CONTEXT"); P 61] (snd n) with
                   | Some (TStr c :: r) => (Some c, r)
                   | _ => (None, snd n)
                   end in
  r4 <~ expect [W (lit "GROUP"); W (lit "BY")] r3 ;; k2 <~ p_id r4 ;; _ <~ p_end (snd k2) ;;
  if str_eqb (fst k) (fst k2) then Some (SGroup (fst k) (fst v) (fst n) ctx) else None.
Definition parse (sql : pystr) : option stmt :=
  ts <~ tokens sql ;;
  match p_create ts with
  | Some s => Some s
  | None => match p_insert ts with
            | Some s => Some s
            | None => match p_select_all ts with Some s => Some s | None => p_group ts end
            end
  end.
