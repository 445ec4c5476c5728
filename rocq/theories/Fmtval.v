(** Cell values in JSON: jsonld.format_value (jsonld.py:20-50), and reading dates and times with timezones
    (datatypes.py:283-297, 379-381, 419-424). *)
From Verif Require Import PyStr Dec Numeric Dates DateSpec Datatype.

(** A datetime.datetime with the offset of its timezone from UTC in minutes, if it has one *)
Definition aware : Type := dt * option Z.
(** %02d, %04d, %06d *)
Definition fmt_num (n : nat) (v : N) : pystr := let t := digits_of v in repeat 48 (n - length t) ++ t.
(** datetime.isoformat() (stdlib) *)
Definition iso_offset (o : option Z) : pystr :=
  match o with
  | None => []
  | Some z => let a := Z.to_N (Z.abs z) in (if Z.ltb z 0 then lit "-" else lit "+") ++ fmt_num 2 (a / 60) ++ lit ":" ++ fmt_num 2 (a mod 60)
  end.
Definition isoformat (v : aware) : pystr :=
  let x := fst v in
  fmt_num 4 (y x) ++ lit "-" ++ fmt_num 2 (mo x) ++ lit "-" ++ fmt_num 2 (d x) ++ lit "T"
  ++ fmt_num 2 (h x) ++ lit ":" ++ fmt_num 2 (mi x) ++ lit ":" ++ fmt_num 2 (s x)
  ++ (if us x =? 0 then [] else lit "." ++ fmt_num 6 (us x)) ++ iso_offset (snd v).
(** re.sub('T[0-9.:]+', '', s): jsonld.py:29 *)
Definition clock_char (c : N) : bool := is_digit c || (c =? 46) || (c =? 58).
Fixpoint sub_clock (skip : bool) (t : pystr) : pystr :=
  match t with
  | [] => []
  | c :: t' => if skip && clock_char c then sub_clock true t'
               else if (c =? 84) && match t' with c' :: _ => clock_char c' | [] => false end then sub_clock true t'
               else c :: sub_clock false t'
  end.
(** jsonld.py:24-34 for a datetime.datetime; [base]: the base of the column's datatype, None if there is no column *)
Definition format_datetime (base : option pystr) (v : aware) : pystr :=
  let is b := match base with Some b' => str_eqb b' b | None => false end in
  let r := isoformat v in
  let r := if is (lit "time") then last (split (lit "T") r) [] else r in
  let r := if is (lit "date") then sub_clock false r else r in
  let p := partition1 46 r in
  match snd p with
  | [] => replace (lit "+00:00") (lit "Z") (fst (fst p))
  | ms => fst (fst p) ++ lit "." ++ rstrip_by (N.eqb 48) ms
  end.

(** Floats: not a number, infinities, and the others *)
Inductive pyfloat (Fl : Type) := FNaN | FInf (neg : bool) | FFin (f : Fl).
Arguments FNaN {Fl}. Arguments FInf {Fl}. Arguments FFin {Fl}.
(** Values of cells.  Du, Ur: durations, URIs *)
Inductive pv (Fl Du Ur : Type) := PvDate (v : aware) | PvDuration (t : Du) | PvDec (x : dec) | PvUri (u : Ur) | PvBytes (b : list N)
  | PvPath (p : pystr) | PvFloat (f : pyfloat Fl) | PvStr (t : pystr) | PvInt (z : Z) | PvBool (b : bool) | PvNone | PvList (l : list (pv Fl Du Ur)).
Arguments PvDate {Fl Du Ur}. Arguments PvDuration {Fl Du Ur}. Arguments PvDec {Fl Du Ur}. Arguments PvUri {Fl Du Ur}. Arguments PvBytes {Fl Du Ur}.
Arguments PvPath {Fl Du Ur}. Arguments PvFloat {Fl Du Ur}. Arguments PvStr {Fl Du Ur}. Arguments PvInt {Fl Du Ur}. Arguments PvBool {Fl Du Ur}.
Arguments PvNone {Fl Du Ur}. Arguments PvList {Fl Du Ur}.
Section Format.
Context {Fl Du Ur : Type}.
Notation pv := (pv Fl Du Ur).
(** float(Decimal) for a number that is not a signaling NaN; Datatype.formatted for durations and bytes; rfc3986's unsplit *)
Variable to_float : dec -> pyfloat Fl.
Variable formatted : pystr -> Du + list N -> res pystr.
Variable unsplit : Ur -> pystr.
(** jsonld.py:46-49 *)
Definition format_float (f : pyfloat Fl) : pv :=
  match f with
  | FNaN => PvStr (lit "NaN")
  | FInf neg => PvStr ((if neg then lit "-" else []) ++ lit "INF")
  | FFin f => PvFloat (FFin f)
  end.
(** jsonld.py:20-50.  [col]: None if there is no column, Some None for a column without a datatype of its own, else the base of its datatype *)
Definition format_value (v : pv) (col : option (option pystr)) : res pv :=
  let base : res pystr := match col with Some (Some b) => Ok b | _ => Err AttributeError end in
  match v with
  | PvDate x => match col with
                | None => Ok (PvStr (format_datetime None x))
                | Some None => Err AttributeError
                | Some (Some b) => Ok (PvStr (format_datetime (Some b) x))
                end
  | PvDuration t => b <- base ;; r <- formatted b (inl t) ;; Ok (PvStr r)
  | PvDec (NaN true _ _) => Err ValueError
  | PvDec x => Ok (format_float (to_float x))
  | PvUri u => Ok (PvStr (unsplit u))
  | PvBytes t => b <- base ;; r <- formatted b (inr t) ;; Ok (PvStr r)
  | PvPath p => Ok (PvStr p)
  | PvFloat f => Ok (format_float f)
  | v => Ok v
  end.
End Format.

(** ** Reading: with_tz, datatypes.py:283-297.  The pattern (Z|[+-][0-2][0-9]:[0-5][0-9])$ is searched; '$' also matches before a final line feed *)
Definition tz_at (t : pystr) : option (pystr * pystr) :=
  match rev t with
  | m2 :: r =>
      if m2 =? 90 then Some (rev r, lit "Z")
      else match r with
           | m1 :: c :: h2 :: h1 :: sg :: r' =>
               if is_digit m2 && ((48 <=? m1) && (m1 <=? 53)) && (c =? 58) && is_digit h2 && ((48 <=? h1) && (h1 <=? 50)) && ((sg =? 43) || (sg =? 45))
               then Some (rev r', [sg; h1; h2; c; m1; m2]) else None
           | _ => None
           end
  | [] => None
  end.
Definition tz_search (t : pystr) : option (pystr * pystr) :=
  match tz_at t with
  | Some r => Some r
  | None => match rev t with c :: r => if c =? 10 then tz_at (rev r) else None | [] => None end
  end.
(** dateutil.parser.parse('<now><tz>').tzinfo (library): Z is UTC, +hh:mm and -hh:mm are offsets *)
Definition tz_offset (z : pystr) : Z :=
  match z with
  | [sg; h1; h2; _; m1; m2] => let v := Z.of_N (60 * val_digits [h1; h2] + val_digits [m1; m2]) in if sg =? 45 then Z.opp v else v
  | _ => 0%Z
  end.
Definition with_tz (f : pystr -> res aware) (t : pystr) : res aware :=
  match tz_search t with
  | Some (t', z) => r <- f t' ;; Ok (fst r, Some (tz_offset z))
  | None => f t
  end.
(** date.to_python: datatypes.py:379-381 with dateTime.to_python (:336-345).  [isoparse]: dateutil's, None is ValueError *)
Definition date_to_python (isoparse : pystr -> option aware) (today : N * N * N) (its : list item) (t : pystr) : res aware :=
  with_tz (fun t => match rmatch its t with
                    | None => Err ValueError
                    | Some _ => match isoparse t with
                                | Some r => Ok r
                                | None => r <- dt_parse today its t ;; Ok (r, None)
                                end
                    end) (strip t).
(** _time.to_python: datatypes.py:419-424, for a format without timezone marker *)
Definition time_to_python (today : N * N * N) (its : list item) (t : pystr) : res aware :=
  with_tz (fun t => r <- dt_parse today its t ;; Ok (r, None)) t.
