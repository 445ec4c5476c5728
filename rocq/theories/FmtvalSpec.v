(** Specification of the JSON literals of dates and times. *)
From Verif Require Import PyStr Dec DecProofs Dates DateSpec Fmtval.

Definition iso_date : dpat := {| dp_order := YMD; dp_sep := lit "-"; dp_padded := true |}.
Definition iso_clock : tpat := {| tp_colon := true; tp_secs := true |}.
(** The timezone: nothing, Z for UTC, or +hh:mm, -hh:mm *)
Definition zone_text (o : option Z) : pystr :=
  match o with
  | None => []
  | Some z => if Z.eqb z 0 then lit "Z"
              else let a := Z.to_N (Z.abs z) in (if Z.ltb z 0 then lit "-" else lit "+") ++ pad 2 (a / 60) ++ lit ":" ++ pad 2 (a mod 60)
  end.
Definition zone_ok (o : option Z) : Prop := match o with Some z => (-1440 < z < 1440)%Z | None => True end.
(** The digits w after the decimal point: none, or as few as possible *)
Definition fraction (us : N) (w : pystr) : Prop :=
  all_digits w = true /\ (length w <= 6)%nat /\ val_digits w * 10 ^ N.of_nat (6 - length w) = us /\ (w = [] \/ exists w' c, w = w' ++ [c] /\ c <> 48).
(** yyyy-MM-dd, HH:mm:ss, with the timezone at the end *)
Definition literal (base : pystr) (v : aware) (t : pystr) : Prop :=
  exists w, fraction (us (fst v)) w /\
  t = (if str_eqb base (lit "date") then date_text iso_date (fst v)
       else if str_eqb base (lit "time") then clock_text iso_clock (fst v) ++ frac_part w
       else date_text iso_date (fst v) ++ lit "T" ++ clock_text iso_clock (fst v) ++ frac_part w) ++ zone_text (snd v).
(** JSON scalars: what json.dumps can write as standard JSON *)
Definition json_scalar {Fl Du Ur} (v : pv Fl Du Ur) : Prop :=
  match v with PvStr _ | PvInt _ | PvBool _ | PvNone | PvFloat (FFin _) => True | _ => False end.
(** Values that need a datatype to be written *)
Definition needs_type {Fl Du Ur} (v : pv Fl Du Ur) : Prop := match v with PvDuration _ | PvBytes _ => True | _ => False end.
(** The same day at midnight; the same time on another day *)
Definition midnight (x : dt) : dt := {| y := y x; mo := mo x; d := d x; h := 0; mi := 0; s := 0; us := 0 |}.
Definition at_day (today : N * N * N) (x : dt) : dt := {| y := fst (fst today); mo := snd (fst today); d := snd today; h := h x; mi := mi x; s := s x; us := us x |}.
