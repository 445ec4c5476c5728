(** datatypes.boolean, hexBinary, base64Binary, normalizedString, NMTOKEN, string. *)
From Verif Require Import PyStr Json.

(** ** boolean: datatypes.py:237-280 *)
(** datatypes.py:257-266 derived_description: (true, false) word lists; a format which is not
    a string with exactly one '|' is ignored (with a warning) *)
Definition bool_words (fmt : json) : list pystr * list pystr :=
  match fmt with
  | JStr f =>
      if Nat.eqb (count_char 124 f) 1 then
        match split (lit "|") f with
        | [t; e] => ([t], [e])
        | _ => ([], [])
        end
      else ([lit "true"; lit "1"], [lit "false"; lit "0"])
  | _ => ([lit "true"; lit "1"], [lit "false"; lit "0"])
  end.
(** datatypes.py:262-264: the warning about it *)
Definition odd_bool_format (fmt : json) : bool :=
  truthy fmt && match fmt with JStr f => negb (Nat.eqb (count_char 124 f) 1) | _ => true end.
(** datatypes.py:268-276 for a str argument *)
Definition bool_to_python (w : list pystr * list pystr) (s : pystr) : res bool :=
  if str_mem s (fst w) then Ok true
  else if str_mem s (snd w) then Ok false
  else Err ValueError.
(** datatypes.py:278-280 *)
Definition bool_to_string (w : list pystr * list pystr) (b : bool) : pystr :=
  hd [] (if b then fst w else snd w).

(** ** bytes *)
(** bytes(s, 'ascii'): None = UnicodeEncodeError; datatypes.py:43-46 *)
Definition to_binary (s : pystr) : option (list N) := if forallb (fun c => c <? 128) s then Some s else None.

(** ** hexBinary: datatypes.py:207-234 *)
Definition hex_val (c : N) : option N :=
  if is_digit c then Some (c - 48)
  else if (65 <=? c) && (c <=? 70) then Some (c - 55)
  else if (97 <=? c) && (c <=? 102) then Some (c - 87)
  else None.
(** binascii.unhexlify (stdlib); None = binascii.Error *)
Fixpoint unhexlify (s : pystr) : option (list N) :=
  match s with
  | [] => Some []
  | a :: b :: s' => match hex_val a, hex_val b, unhexlify s' with
                    | Some x, Some y, Some r => Some (x * 16 + y :: r)
                    | _, _, _ => None
                    end
  | _ => None
  end.
Definition hex_digit (n : N) : N := if n <? 10 then 48 + n else 87 + n.
(** binascii.hexlify (stdlib) *)
Definition hexlify (b : list N) : pystr := flat_map (fun x => [hex_digit (x / 16); hex_digit (x mod 16)]) b.
(** datatypes.py:220-230 *)
Definition hex_to_python (s : pystr) : res (list N) :=
  match to_binary s with
  | None => Err ValueError
  | Some t => match unhexlify t with Some b => Ok b | None => Err ValueError end
  end.
(** datatypes.py:232-234 *)
Definition hex_to_string (b : list N) : pystr := ascii_upper (hexlify b).

(** ** base64Binary: datatypes.py:174-204 *)
Definition b64_char (v : N) : N :=
  if v <? 26 then 65 + v else if v <? 52 then 71 + v else if v <? 62 then v - 4 else if v =? 62 then 43 else 47.
Definition b64_val (c : N) : option N :=
  if (65 <=? c) && (c <=? 90) then Some (c - 65)
  else if (97 <=? c) && (c <=? 122) then Some (c - 71)
  else if is_digit c then Some (c + 4)
  else if c =? 43 then Some 62
  else if c =? 47 then Some 63
  else None.
(** binascii.b2a_base64(chunk, newline=False) (stdlib); shifts and masks as division and remainder *)
Fixpoint b64_chunk (b : list N) : pystr :=
  match b with
  | [] => []
  | [x] => [b64_char (x / 4); b64_char (x mod 4 * 16); 61; 61]
  | [x; y] => [b64_char (x / 4); b64_char (x mod 4 * 16 + y / 16); b64_char (y mod 16 * 4); 61]
  | x :: y :: z :: b' =>
      b64_char (x / 4) :: b64_char (x mod 4 * 16 + y / 16) :: b64_char (y mod 16 * 4 + z / 64) :: b64_char (z mod 64)
      :: b64_chunk b'
  end.
(** base64.encodebytes (stdlib): lines of 57 bytes; [fuel] >= number of lines *)
Fixpoint encode_lines (fuel : nat) (b : list N) : pystr :=
  match fuel, b with
  | _, [] => []
  | O, _ => []
  | S f, _ => b64_chunk (firstn 57 b) ++ [10] ++ encode_lines f (skipn 57 b)
  end.
Definition encodebytes (b : list N) : pystr := encode_lines (length b) b.
(** binascii.a2b_base64, not strict (stdlib): characters outside the alphabet are skipped, a
    completed padding ends the data; None = incorrect padding *)
Fixpoint a2b (s : pystr) (quad : nat) (left : N) (pads : nat) : option (list N) :=
  match s with
  | [] => if Nat.eqb quad 0 then Some [] else None
  | c :: s' =>
      if c =? 61 then
        if Nat.leb 2 quad then
          if Nat.leb 4 (quad + S pads) then Some [] else a2b s' quad left (S pads)
        else a2b s' quad left pads
      else match b64_val c with
           | None => a2b s' quad left pads
           | Some v =>
               match quad with
               | O => a2b s' 1 v 0
               | 1%nat => option_map (cons (left * 4 + v / 16)) (a2b s' 2 (v mod 16) 0)
               | 2%nat => option_map (cons (left * 16 + v / 4)) (a2b s' 3 (v mod 4) 0)
               | _ => option_map (cons (left * 64 + v)) (a2b s' 0 0 0)
               end
           end
  end.
Definition decodebytes (s : list N) : option (list N) := a2b s 0 0 0.
(** datatypes.py:182-192 *)
Definition b64_to_python (s : pystr) : res (list N) :=
  match to_binary s with
  | None => Err ValueError
  | Some t => match decodebytes t with Some b => Ok b | None => Err ValueError end
  end.
(** datatypes.py:194-196 *)
Definition b64_to_string (b : list N) : pystr := strip (encodebytes b).

(** ** normalizedString: datatypes.py:865-889; the regex is never passed on *)
Definition norm_to_python (v : pystr) : pystr :=
  strip (replace1 9 [32] (replace1 10 [32] (replace1 13 [32] v))).

(** ** string, NMTOKEN: datatypes.py:85-172 *)
Section Regex.
(** re: [rmatch v] is regex.match(v) for the compiled format, if there is one *)
Variable rmatch : option (pystr -> bool).
Definition string_to_python (v : pystr) : res pystr :=
  match rmatch with
  | Some m => if m v then Ok v else Err ValueError
  | None => Ok v
  end.
(** \w *)
Variable word : N -> bool.
Definition nmtoken_to_python (v : pystr) : res pystr :=
  v <- string_to_python v ;;
  if forallb (fun c => word c || char_mem c (lit ".:-")) v then Ok v else Err ValueError.
End Regex.
