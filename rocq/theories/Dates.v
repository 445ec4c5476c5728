(** datatypes.dt_format_and_regex and dateTime._parse. *)
From Verif Require Import PyStr Dec.

(** The compiled regular expressions are sequences of these items (the only ones
    dt_format_and_regex builds); matching follows Python's re: leftmost alternative first,
    repetitions greedy, with backtracking. *)
Inductive fld := FYear | FMonth | FDay | FHour | FMinute | FSecond.
Inductive item :=
| IField (f : fld) (lo hi : nat)   (* (?P<f>[0-9]{lo,hi}) *)
| ILit (c : N)                     (* re.escape(c) *)
| IFrac (n : nat)                  (* (\.(?P<microsecond>[0-9]{1,n})(?![0-9]))? *)
| IExtra (n : nat).                (* (\.(?P<extramicroseconds>[0-9]{n,})(?![0-9]))? *)
Inductive grp := GField (f : fld) | GMicro | GExtra.

Fixpoint digit_run (s : pystr) : nat :=
  match s with c :: s' => if is_digit c then S (digit_run s') else O | [] => O end.
(** f hi, f (hi-1), ..., f lo: the first success *)
Fixpoint try_down {A} (lo : nat) (f : nat -> option A) (hi : nat) : option A :=
  if Nat.ltb hi lo then None
  else match f hi with
       | Some r => Some r
       | None => match hi with O => None | S h => try_down lo f h end
       end.
Definition next_not_digit (s : pystr) : bool := match s with c :: _ => negb (is_digit c) | [] => true end.

(** re.match: a match at the start of the text; nothing is required of the end *)
Fixpoint rmatch (its : list item) (s : pystr) : option (list (grp * pystr)) :=
  match its with
  | [] => Some []
  | ILit c :: its' => match s with x :: s' => if x =? c then rmatch its' s' else None | [] => None end
  | IField f lo hi :: its' =>
      try_down lo (fun k => option_map (cons (GField f, firstn k s)) (rmatch its' (skipn k s)))
               (Nat.min hi (digit_run s))
  | IFrac n :: its' =>
      match match s with
            | c :: s' => if c =? 46 then
                try_down 1 (fun k => if next_not_digit (skipn k s')
                                     then option_map (cons (GMicro, firstn k s')) (rmatch its' (skipn k s'))
                                     else None) (Nat.min n (digit_run s'))
                else None
            | [] => None
            end with
      | Some r => Some r
      | None => rmatch its' s
      end
  | IExtra n :: its' =>
      match match s with
            | c :: s' => if c =? 46 then
                try_down n (fun k => if next_not_digit (skipn k s')
                                     then option_map (cons (GExtra, firstn k s')) (rmatch its' (skipn k s'))
                                     else None) (digit_run s')
                else None
            | [] => None
            end with
      | Some r => Some r
      | None => rmatch its' s
      end
  end.

(** datatypes.py:1067-1078; None = KeyError *)
Definition translate (part : pystr) : option item :=
  let is := str_eqb part in
  if is (lit "yyyy") then Some (IField FYear 4 4)
  else if is (lit "MM") then Some (IField FMonth 2 2)
  else if is (lit "dd") then Some (IField FDay 2 2)
  else if is (lit "M") then Some (IField FMonth 1 2)
  else if is (lit "d") then Some (IField FDay 1 2)
  else if is (lit "HH") then Some (IField FHour 2 2)
  else if is (lit "mm") then Some (IField FMinute 2 2)
  else if is (lit "ss") then Some (IField FSecond 2 2)
  else None.
Definition translate_all (parts : list pystr) : res (list item) :=
  mapM (fun p => match translate p with Some i => Ok i | None => Err KeyError end) parts.
Fixpoint intersperse {A} (x : A) (l : list A) : list A :=
  match l with a :: l' => match l' with [] => [a] | _ => a :: x :: intersperse x l' end | [] => [] end.
(** itertools.groupby(s, identity), each run as a string *)
Fixpoint runs (s : pystr) : list pystr :=
  match s with
  | [] => []
  | c :: s' => match runs s' with
               | (d :: r) :: rs => if c =? d then (c :: d :: r) :: rs else [c] :: (d :: r) :: rs
               | rs => [c] :: rs
               end
  end.

(** datatypes.py:1048-1063 *)
Definition date_patterns : list pystr :=
  [ lit "yyyy-MM-dd"; lit "yyyyMMdd"; lit "dd-MM-yyyy"; lit "d-M-yyyy"; lit "MM-dd-yyyy"; lit "M-d-yyyy";
    lit "dd/MM/yyyy"; lit "d/M/yyyy"; lit "MM/dd/yyyy"; lit "M/d/yyyy"; lit "dd.MM.yyyy"; lit "d.M.yyyy";
    lit "MM.dd.yyyy"; lit "M.d.yyyy" ].
(** datatypes.py:1065 *)
Definition time_patterns : list pystr := [lit "HH:mm:ss"; lit "HHmmss"; lit "HH:mm"; lit "HHmm"].

(** the trailing timezone marker, datatypes.py:1039-1046: re.search(' ?[xX]{1,3}$'); '$' also matches
    before a final line feed.  Result: rest of the format and marker *)
Fixpoint take_x (n : nat) (r : pystr) : pystr * pystr :=
  match n, r with
  | S k, c :: r' => if (c =? 120) || (c =? 88) then let p := take_x k r' in (c :: fst p, snd p) else ([], r)
  | _, _ => ([], r)
  end.
Definition marker_at (s : pystr) : option (pystr * pystr) :=
  let p := take_x 3 (rev s) in
  match fst p with
  | [] => None
  | xs => match snd p with
          | c :: r => if c =? 32 then Some (rev r, 32 :: rev xs) else Some (rev (c :: r), rev xs)
          | [] => Some ([], rev xs)
          end
  end.
Definition search_marker (s : pystr) : option (pystr * pystr) :=
  match rev s with
  | c :: r => if c =? 10 then marker_at (rev r)
              else marker_at s
  | [] => None
  end.
Definition one_char (s : pystr) : bool :=
  match strip s with c :: r => forallb (N.eqb c) r | [] => false end.

Record dtfmt := { f_items : list item; f_marker : option pystr }.

(** datatypes.py:1108-1129 *)
Definition date_items (dfmt : pystr) : res (list item) :=
  match dfmt with
  | [] => Ok []
  | _ =>
      match find (fun c => char_mem c dfmt) [46; 45; 47] with
      | Some c => l <- translate_all (split [c] dfmt) ;; Ok (intersperse (ILit c) l)
      | None => translate_all (runs dfmt)
      end
  end.
(** datatypes.py:1135-1149 *)
Definition time_items (tfmt : pystr) : res (list item) :=
  match tfmt with
  | [] => Ok []
  | _ => if char_mem 58 tfmt then l <- translate_all (split [58] tfmt) ;; Ok (intersperse (ILit 58) l)
         else translate_all (runs tfmt)
  end.
(** datatypes.py:1080-1158: the format without timezone marker *)
Definition dt_body (fmt : pystr) (no_date : bool) : res (list item) :=
  let sep := find (fun c => char_mem c fmt) [32; 84] in
  dt <- match sep with
        | Some c => match split [c] fmt with [d; t] => Ok (d, Some t) | _ => Err ValueError end
        | None => Ok (if no_date then ([], Some fmt) else (fmt, None))
        end ;;
  let dfmt : pystr := fst dt in
  ft <- match snd dt with
        | Some t => if char_mem 46 t then
                      match split [46] t with
                      | [t'; ms] => if negb (match ms with [] => true | _ => false end) && forallb (N.eqb 83) ms
                                    then Ok (t', length ms) else Err ValueError
                      | _ => Err ValueError
                      end
                    else Ok (t, 0%nat)
        | None => Ok ([], 0%nat)
        end ;;
  let tfmt : pystr := fst ft in
  let msecs := snd ft in
  let bad l s := match s with [] => false | _ => negb (str_mem s l) end in
  if bad date_patterns dfmt || bad time_patterns tfmt then Err ValueError
  else
    di <- date_items dfmt ;;
    ti <- time_items tfmt ;;
    Ok (di ++ match sep with Some c => [ILit c] | None => [] end ++ ti
           ++ match msecs with O => [] | n => [IFrac n; IExtra (S n)] end).
(** datatypes.py:1026-1158 for a string; the textual 'fmt' result is not used by csvw and omitted *)
Definition dt_format_and_regex (fmt : pystr) (no_date : bool) : res dtfmt :=
  match search_marker fmt with
  | Some (f, m) => if one_char m then its <- dt_body f no_date ;; Ok {| f_items := its; f_marker := Some m |}
                   else Err ValueError
  | None => its <- dt_body fmt no_date ;; Ok {| f_items := its; f_marker := None |}
  end.

(** ** datetime.datetime: the constructor (stdlib) *)
Record dt := { y : N; mo : N; d : N; h : N; mi : N; s : N; us : N }.
Definition leap (y : N) : bool := (y mod 4 =? 0) && (negb (y mod 100 =? 0) || (y mod 400 =? 0)).
Definition days_in_month (y m : N) : N :=
  if m =? 2 then (if leap y then 29 else 28) else if (m =? 4) || (m =? 6) || (m =? 9) || (m =? 11) then 30 else 31.
Definition dt_ok (x : dt) : bool :=
  (1 <=? y x) && (y x <=? 9999) && (1 <=? mo x) && (mo x <=? 12) && (1 <=? d x) && (d x <=? days_in_month (y x) (mo x))
  && (h x <? 24) && (mi x <? 60) && (s x <? 60) && (us x <? 1000000).

(** ** dateTime._parse: datatypes.py:311-334, without timezone marker *)
Definition grp_eqb (a b : grp) : bool :=
  match a, b with
  | GField FYear, GField FYear | GField FMonth, GField FMonth | GField FDay, GField FDay | GField FHour, GField FHour
  | GField FMinute, GField FMinute | GField FSecond, GField FSecond | GMicro, GMicro | GExtra, GExtra => true
  | _, _ => false
  end.
Definition lookup (g : grp) (l : list (grp * pystr)) : option pystr :=
  option_map snd (find (fun p => grp_eqb g (fst p)) l).
Definition pad6 (t : pystr) : pystr := let t := firstn 6 t in t ++ repeat 48 (6 - length t).
(** [today] = year, month, day of datetime.date.today() *)
Definition dt_parse (today : N * N * N) (its : list item) (v : pystr) : res dt :=
  match rmatch its (strip v) with
  | None => Err ValueError
  | Some gs =>
      match lookup GExtra gs with
      | Some _ => Err ValueError
      | None =>
          let int g dflt := match lookup g gs with Some t => val_digits t | None => dflt end in
          let tod := match lookup (GField FYear) gs with Some _ => (0, 0, 0) | None => today end in
          let r := {| y := int (GField FYear) (fst (fst tod));
                      mo := int (GField FMonth) (snd (fst tod));
                      d := int (GField FDay) (snd tod);
                      h := int (GField FHour) 0; mi := int (GField FMinute) 0; s := int (GField FSecond) 0;
                      us := match lookup GMicro gs with Some t => val_digits (pad6 t) | None => 0 end |} in
          if dt_ok r then Ok r else Err ValueError
      end
  end.
(** ** dateTime.to_python: datatypes.py:336-345.  [isoparse v] is dateutil.parser.isoparse(v),
    None = ValueError; timezones are not modelled *)
Definition dt_to_python (isoparse : pystr -> option dt) (today : N * N * N) (its : list item) (v : pystr) : res dt :=
  match rmatch its v with
  | None => Err ValueError
  | Some _ => match isoparse v with
              | Some r => Ok r
              | None => dt_parse today its v
              end
  end.
