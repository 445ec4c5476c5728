(** JSON texts: Python's json.dumps and json.loads as the package calls them. *)
From Verif Require Import PyStr Dec Dsv Json.

(** ** Writing.  json/encoder.py of Python 3.11, as called in
    /repo/src/csvw/datatypes.py:1023, db.py:569, frictionless.py:178, utils.py:224 (json.dumps(v)),
    metadata.py:1116 (json.dump(..., indent=4, separators=(',', ': '))) and __main__.py:59, 105, 122
    (json.dumps(..., indent=4), which is the same); ensure_ascii is on *)
Definition hexdigit (n : N) : N := if n <? 10 then 48 + n else 87 + n.
(** '\\u{0:04x}'.format(n), for n < 0x10000 *)
Definition u_escape (n : N) : pystr := [92; 117; hexdigit (n / 4096 mod 16); hexdigit (n / 256 mod 16); hexdigit (n / 16 mod 16); hexdigit (n mod 16)].
(** json/encoder.py py_encode_basestring_ascii, one character *)
Definition escape_char (c : N) : pystr :=
  if c =? 92 then [92; 92] else if c =? 34 then [92; 34]
  else if c =? 8 then [92; 98] else if c =? 12 then [92; 102] else if c =? 10 then [92; 110] else if c =? 13 then [92; 114] else if c =? 9 then [92; 116]
  else if (32 <=? c) && (c <=? 126) then [c]
  else if c <? 65536 then u_escape c
  else u_escape (55296 + (c - 65536) / 1024 mod 1024) ++ u_escape (56320 + (c - 65536) mod 1024).
Definition dump_str (s : pystr) : pystr := [34] ++ flat_map escape_char s ++ [34].
(** floatstr: the token of a float is its repr *)
Definition dump_float (r : pystr) : pystr :=
  if str_eqb r (lit "nan") then lit "NaN" else if str_eqb r (lit "inf") then lit "Infinity" else if str_eqb r (lit "-inf") then lit "-Infinity" else r.
(** int.__repr__; the limit of 4300 digits of Python >= 3.11 is not modelled *)
Definition dump_int (z : Z) : pystr := int_str z.

Record style := { st_indent : option nat; st_item : pystr; st_key : pystr }.
(** json.dumps(v): one line *)
Definition one_line : style := {| st_indent := None; st_item := lit ", "; st_key := lit ": " |}.
(** indent=4: a line for each item *)
Definition indented : style := {| st_indent := Some 4%nat; st_item := lit ","; st_key := lit ": " |}.
Definition newline (st : style) (level : nat) : pystr := match st_indent st with None => [] | Some n => 10 :: repeat 32 (n * level) end.
(** _make_iterencode, the chunks joined; dicts with str keys only *)
Fixpoint dump (st : style) (level : nat) (j : json) {struct j} : pystr :=
  match j with
  | JNull => lit "null"
  | JBool true => lit "true"
  | JBool false => lit "false"
  | JInt z => dump_int z
  | JFloat r => dump_float r
  | JStr s => dump_str s
  | JList [] => lit "[]"
  | JList l => lit "[" ++ newline st (S level) ++ join (st_item st ++ newline st (S level)) (map (fun x => dump st (S level) x) l) ++ newline st level ++ lit "]"
  | JObj [] => lit "{}"
  | JObj kvs => lit "{" ++ newline st (S level) ++ join (st_item st ++ newline st (S level)) (map (fun kv => dump_str (fst kv) ++ st_key st ++ dump st (S level) (snd kv)) kvs) ++ newline st level ++ lit "}"
  end.
Definition dumps (st : style) (j : json) : pystr := dump st 0 j.

(** ** Reading.  json/decoder.py and json/scanner.py of Python 3.11 (where the C scanner differs, the
    C scanner: digits are ASCII), as called in /repo/src/csvw/datatypes.py:997, 1013,
    metadata.py:223 (json.load(f, object_pairs_hook=OrderedDict)), frictionless.py:166, db.py:481.
    None: JSONDecodeError.  RecursionError and the digit limit of int are not modelled. *)
Definition is_ws (c : N) : bool := (c =? 32) || (c =? 9) || (c =? 10) || (c =? 13).
Fixpoint skip_ws (s : pystr) : pystr := match s with c :: r => if is_ws c then skip_ws r else s | [] => [] end.
Definition hexval (c : N) : option N :=
  if (48 <=? c) && (c <=? 57) then Some (c - 48) else if (97 <=? c) && (c <=? 102) then Some (c - 87) else if (65 <=? c) && (c <=? 70) then Some (c - 55) else None.
Definition hex4 (a b c d : N) : option N :=
  match hexval a, hexval b, hexval c, hexval d with Some x, Some y, Some z, Some w => Some (4096 * x + 256 * y + 16 * z + w) | _, _, _, _ => None end.
Definition is_high (u : N) : bool := (55296 <=? u) && (u <=? 56319).
Definition is_low (u : N) : bool := (56320 <=? u) && (u <=? 57343).
Definition unescape (e : N) : option N :=
  if (e =? 34) || (e =? 92) || (e =? 47) then Some e
  else if e =? 98 then Some 8 else if e =? 102 then Some 12 else if e =? 110 then Some 10 else if e =? 114 then Some 13 else if e =? 116 then Some 9 else None.
Definition consr (c : N) (r : option (pystr * pystr)) : option (pystr * pystr) := match r with Some (s, t) => Some (c :: s, t) | None => None end.
(** scanstring, after the opening quote; control characters are errors (strict) *)
Fixpoint scan_str (s : pystr) : option (pystr * pystr) :=
  match s with
  | [] => None
  | c :: r =>
      if c =? 34 then Some ([], r)
      else if c <? 32 then None
      else if negb (c =? 92) then consr c (scan_str r)
      else match r with
           | [] => None
           | e :: r0 =>
               if negb (e =? 117) then match unescape e with Some x => consr x (scan_str r0) | None => None end
               else match r0 with
                    | a :: b :: c' :: d :: r1 =>
                        match hex4 a b c' d with
                        | None => None
                        | Some u =>
                            if is_high u then
                              match r1 with
                              | k1 :: k2 :: a2 :: b2 :: c2 :: d2 :: r2 =>
                                  if (k1 =? 92) && (k2 =? 117) then
                                    match hex4 a2 b2 c2 d2 with
                                    | None => None
                                    | Some v => if is_low v then consr (65536 + (u - 55296) * 1024 + (v - 56320)) (scan_str r2) else consr u (scan_str r1)
                                    end
                                  else consr u (scan_str r1)
                              | _ => consr u (scan_str r1)
                              end
                            else consr u (scan_str r1)
                        end
                    | _ => None
                    end
           end
  end.
(** scanner.py NUMBER_RE: an optional minus, digits without leading zero, optionally a point and digits,
    optionally e or E, a sign and digits; and what is left *)
Definition scan_sign (s : pystr) : pystr * pystr := match s with c :: r => if c =? 45 then ([45], r) else ([], s) | [] => ([], s) end.
Definition scan_int (s : pystr) : option (pystr * pystr) :=
  match s with
  | c :: r => if c =? 48 then Some ([48], r) else if is_digit c then Some (span_digits s) else None
  | [] => None
  end.
Definition scan_frac (s : pystr) : pystr * pystr :=
  match s with
  | c :: r => if c =? 46 then match span_digits r with ([], _) => ([], s) | (ds, t) => (46 :: ds, t) end else ([], s)
  | [] => ([], s)
  end.
Definition scan_exp (s : pystr) : pystr * pystr :=
  match s with
  | c :: r =>
      if (c =? 101) || (c =? 69) then
        let sg := match r with d :: t => if (d =? 43) || (d =? 45) then ([d], t) else ([], r) | [] => ([], r) end in
        match span_digits (snd sg) with ([], _) => ([], s) | (ds, t) => (c :: fst sg ++ ds, t) end
      else ([], s)
  | [] => ([], s)
  end.
Definition strip_prefix (p s : pystr) : option pystr := if startswith p s then Some (skipn (length p) s) else None.

Section Loads.
(** repr(float(t)) of a number t with a fraction or an exponent *)
Variable float_repr : pystr -> pystr.

Definition scan_number (s : pystr) : option (json * pystr) :=
  let sg := scan_sign s in
  match scan_int (snd sg) with
  | None => None
  | Some (ip, r) =>
      let fr := scan_frac r in
      let ex := scan_exp (snd fr) in
      match fst fr ++ fst ex with
      | [] => Some (JInt (match fst sg with [] => Z.of_N (val_digits ip) | _ => - Z.of_N (val_digits ip) end)%Z, snd ex)
      | fe => Some (JFloat (float_repr (fst sg ++ ip ++ fe)), snd ex)
      end
  end.
(** json/scanner.py _scan_once, JSONObject, JSONArray; [n] is fuel.  The pairs of an object are those
    of an OrderedDict resp. dict: a repeated key keeps its place and takes the last value *)
Fixpoint scan (n : nat) (s : pystr) {struct n} : option (json * pystr) :=
  match n with
  | O => None
  | S n =>
      match s with
      | [] => None
      | c :: r =>
          if c =? 34 then match scan_str r with Some (x, t) => Some (JStr x, t) | None => None end
          else if c =? 123 then
            match skip_ws r with
            | d :: t => if d =? 125 then Some (JObj [], t)
                        else match members n (d :: t) with Some (kvs, t') => Some (JObj (dset_all str_eqb [] kvs), t') | None => None end
            | [] => None
            end
          else if c =? 91 then
            match skip_ws r with
            | d :: t => if d =? 93 then Some (JList [], t)
                        else match elements n (d :: t) with Some (l, t') => Some (JList l, t') | None => None end
            | [] => None
            end
          else match strip_prefix (lit "null") s with Some t => Some (JNull, t) | None =>
               match strip_prefix (lit "true") s with Some t => Some (JBool true, t) | None =>
               match strip_prefix (lit "false") s with Some t => Some (JBool false, t) | None =>
               match scan_number s with Some x => Some x | None =>
               match strip_prefix (lit "NaN") s with Some t => Some (JFloat (lit "nan"), t) | None =>
               match strip_prefix (lit "Infinity") s with Some t => Some (JFloat (lit "inf"), t) | None =>
               match strip_prefix (lit "-Infinity") s with Some t => Some (JFloat (lit "-inf"), t) | None => None
               end end end end end end end
      end
  end
(** value (ws , ws value)* ws ], at a value *)
with elements (n : nat) (s : pystr) {struct n} : option (list json * pystr) :=
  match n with
  | O => None
  | S n =>
      match scan n s with
      | None => None
      | Some (x, r) =>
          match skip_ws r with
          | c :: t => if c =? 93 then Some ([x], t)
                      else if c =? 44 then match elements n (skip_ws t) with Some (l, t') => Some (x :: l, t') | None => None end
                      else None
          | [] => None
          end
      end
  end
(** string ws : ws value (ws , ws ...)* ws }, at a string *)
with members (n : nat) (s : pystr) {struct n} : option (list (pystr * json) * pystr) :=
  match n with
  | O => None
  | S n =>
      match s with
      | q :: r =>
          if negb (q =? 34) then None
          else match scan_str r with
               | None => None
               | Some (k, r1) =>
                   match skip_ws r1 with
                   | c :: r2 =>
                       if negb (c =? 58) then None
                       else match scan n (skip_ws r2) with
                            | None => None
                            | Some (v, r3) =>
                                match skip_ws r3 with
                                | d :: t => if d =? 125 then Some ([(k, v)], t)
                                            else if d =? 44 then match members n (skip_ws t) with Some (l, t') => Some ((k, v) :: l, t') | None => None end
                                            else None
                                | [] => None
                                end
                            end
                   | [] => None
                   end
               end
      | [] => None
      end
  end.
(** json.loads of a str: no byte order mark, white space around one value *)
Definition loads (s : pystr) : option json :=
  if startswith [65279] s then None
  else match scan (2 * length s + 1) (skip_ws s) with
       | Some (j, r) => match skip_ws r with [] => Some j | _ => None end
       | None => None
       end.
End Loads.

(** ** The datatype json: datatypes.py:956-1023 *)
(** jsonschema, an oracle: is this a schema, and does the value satisfy it *)
Record schemas := { sc_ok : json -> bool; sc_valid : json -> json -> bool }.
Section JsonType.
Variable float_repr : pystr -> pystr.
Variable S : schemas.
(** datatypes.py:993-1007 derived_description; a format is a str, the empty one is no format; a text
    that is not JSON, or not a schema (a warning), is dropped *)
Definition json_schema (fmt : option pystr) : option json :=
  match fmt with
  | None | Some [] => None
  | Some f => match loads float_repr f with Some j => if sc_ok S j then Some j else None | None => None end
  end.
(** datatypes.py:1011-1020 to_python; JSONDecodeError is a ValueError; 'if schema' is the truth value
    of the schema *)
Definition json_read (fmt : option pystr) (v : pystr) : res json :=
  match loads float_repr v with
  | None => Err ValueError
  | Some j => match json_schema fmt with
              | Some sch => if truthy sch && negb (sc_valid S sch j) then Err ValueError else Ok j
              | None => Ok j
              end
  end.
(** datatypes.py:1021-1023 to_string *)
Definition json_write (j : json) : pystr := dumps one_line j.
End JsonType.
