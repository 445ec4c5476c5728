(** Vocabulary of C21: the documented formats and how dates and times are written in them. *)
From Verif Require Import PyStr Dec Dates.

(** ** Formats *)
Inductive order := YMD | DMY | MDY.
Record dpat := { dp_order : order; dp_sep : pystr; dp_padded : bool }.
Record tpat := { tp_colon : bool; tp_secs : bool }.
Definition in_order {A} (o : order) (y m d : A) : list A :=
  match o with YMD => [y; m; d] | DMY => [d; m; y] | MDY => [m; d; y] end.
Definition dpat_text (p : dpat) : pystr :=
  join (dp_sep p) (in_order (dp_order p) (lit "yyyy") (if dp_padded p then lit "MM" else lit "M")
                            (if dp_padded p then lit "dd" else lit "d")).
Definition tpat_text (t : tpat) : pystr :=
  join (if tp_colon t then lit ":" else []) ([lit "HH"; lit "mm"] ++ (if tp_secs t then [lit "ss"] else [])).
(** the 14 documented date patterns: yyyy-MM-dd, yyyyMMdd, and day-month-year, month-day-year
    with or without leading zeros, separated by '-', '/' or '.' *)
Definition documented_dates : list dpat :=
  {| dp_order := YMD; dp_sep := lit "-"; dp_padded := true |}
  :: {| dp_order := YMD; dp_sep := []; dp_padded := true |}
  :: flat_map (fun s => flat_map (fun o => map (fun b => {| dp_order := o; dp_sep := s; dp_padded := b |}) [true; false])
                                 [DMY; MDY])
              [lit "-"; lit "/"; lit "."].

Definition opt_text {A} (f : A -> pystr) (o : option A) : pystr := match o with Some a => f a | None => [] end.
(** time pattern followed by '.' and n times 'S' *)
Definition time_text (t : option tpat) (n : nat) : pystr :=
  opt_text tpat_text t ++ match n with O => [] | _ => lit "." ++ repeat 83 n end.
Definition body_text (no_date : bool) (dp : option dpat) (sep : option N) (t : option tpat) (n : nat) : pystr :=
  match sep with
  | Some c => opt_text dpat_text dp ++ [c] ++ time_text t n
  | None => if no_date then time_text t n else opt_text dpat_text dp
  end.
(** [ ]x, [ ]xx, [ ]xxx, [ ]X, [ ]XX, [ ]XXX, and (a quirk) an optional final line feed *)
Definition marker_text (space : bool) (x : N) (k : nat) (lf : bool) : pystr :=
  (if space then [32] else []) ++ repeat x k ++ (if lf then [10] else []).
Definition marker_form (m : pystr) : Prop :=
  m = [] \/ exists space x k lf, (x = 120 \/ x = 88) /\ (1 <= k <= 3)%nat /\ m = marker_text space x k lf.
(** every format that is accepted: each part may be missing *)
Definition accepted (no_date : bool) (fmt : pystr) : Prop :=
  exists dp sep t n m,
    (forall p, dp = Some p -> In p documented_dates)
    /\ (forall c, sep = Some c -> c = 32 \/ c = 84)
    /\ marker_form m
    /\ (* a space before the marker belongs to the marker *)
       (forall b, body_text no_date dp sep t n = b ++ [32] -> m = [] \/ exists m', m = 32 :: m')
    /\ fmt = body_text no_date dp sep t n ++ m.

(** ** Writing dates and times *)
Definition pad (n : nat) (v : N) : pystr := repeat 48 (n - length (digits_of v)) ++ digits_of v.
Definition date_text (p : dpat) (x : dt) : pystr :=
  let num v := if dp_padded p then pad 2 v else digits_of v in
  join (dp_sep p) (in_order (dp_order p) (pad 4 (y x)) (num (mo x)) (num (d x))).
Definition clock_text (t : tpat) (x : dt) : pystr :=
  join (if tp_colon t then lit ":" else []) ([pad 2 (h x); pad 2 (mi x)] ++ (if tp_secs t then [pad 2 (s x)] else [])).
(** formats with a date, a time, or both *)
Inductive kind := KDate (p : dpat) | KTime (t : tpat) (n : nat) | KBoth (p : dpat) (sep : N) (t : tpat) (n : nat).
Definition kind_ok (k : kind) : Prop :=
  match k with
  | KDate p => In p documented_dates
  | KTime _ _ => True
  | KBoth p c _ _ => In p documented_dates /\ (c = 32 \/ c = 84)
  end.
Definition kind_format (k : kind) : pystr :=
  match k with
  | KDate p => dpat_text p
  | KTime t n => time_text (Some t) n
  | KBoth p c t n => dpat_text p ++ [c] ++ time_text (Some t) n
  end.
(** [time] passes no_date; date and dateTime don't *)
Definition kind_no_date (k : kind) : bool := match k with KTime _ _ => true | _ => false end.
Definition kind_frac (k : kind) : nat := match k with KDate _ => 0 | KTime _ n | KBoth _ _ _ n => n end.
Definition frac_part (w : pystr) : pystr := match w with [] => [] | _ => lit "." ++ w end.
(** the text of [x] in a format; [w]: digits after the decimal point *)
Definition kind_text (k : kind) (x : dt) (w : pystr) : pystr :=
  match k with
  | KDate p => date_text p x
  | KTime t n => clock_text t x ++ frac_part w
  | KBoth p c t n => date_text p x ++ [c] ++ clock_text t x ++ frac_part w
  end.
(** what a text in that format says *)
Definition said (today : N * N * N) (k : kind) (x : dt) (w : pystr) : dt :=
  let frac := if Nat.leb (length w) 6 then val_digits w * 10 ^ N.of_nat (6 - length w) else val_digits (firstn 6 w) in
  match k with
  | KDate p => {| y := y x; mo := mo x; d := d x; h := 0; mi := 0; s := 0; us := 0 |}
  | KTime t n => {| y := fst (fst today); mo := snd (fst today); d := snd today;
                    h := h x; mi := mi x; s := if tp_secs t then s x else 0; us := frac |}
  | KBoth p c t n => {| y := y x; mo := mo x; d := d x;
                        h := h x; mi := mi x; s := if tp_secs t then s x else 0; us := frac |}
  end.
