(** metadata.Description (inheritance) and metadata.Column: metadata.py:695-852.
    Parametric in the type V of scalar Python values. *)
From Verif Require Import PyStr Dsv Json Dec NatLang.

(** What is needed of scalar values: the string constructor, how csv.writer sees the value, whether it is
    true, and the items it iterates over (a str iterates over its characters; TypeError for numbers).
    [s_repr] is str() of a list of values. *)
Record scalars (V : Type) := {
  s_str : pystr -> V;
  s_cell : V -> cell;
  s_truthy : V -> bool;
  s_iter : V -> res (list V);
  s_repr : list (option V) -> pystr;
}.
Arguments s_str {V}. Arguments s_cell {V}. Arguments s_truthy {V}. Arguments s_iter {V}. Arguments s_repr {V}.

(** A value in a row: None, a scalar, or a list of scalars and Nones. *)
Inductive pyval (V : Type) := PNone | POne (v : V) | PList (l : list (option V)).
Arguments PNone {V}. Arguments POne {V}. Arguments PList {V}.

(** Datatype objects as seen by Column: metadata.py:640-677.  [read] is used on str only: None is passed
    through by parse and validate.  [dt_noisy]: a text for which read issues a warning, whether or not it raises then:
    INF, -INF and NaN for decimal types (datatypes.py:549-551), and any text if the format is malformed
    (datatypes.py:99-103, 262-264, 371-376, 1003-1004).  [dt_fmt_list]: formatted() of a list. *)
Record dtype (V : Type) := {
  dt_base : pystr;
  dt_reads : pystr -> res V;
  dt_noisy : pystr -> bool;
  dt_fmt : V -> res pystr;
  dt_fmt_list : list (option V) -> res pystr;
}.
Arguments dt_base {V}. Arguments dt_reads {V}. Arguments dt_noisy {V}. Arguments dt_fmt {V}. Arguments dt_fmt_list {V}.

(** Description: metadata.py:695-734.  [None] = attribute is None.  [de_datatype = Some None] is a false
    value other than None (e.g. an empty string).  [de_required] is the truth value of the attribute.
    URL templates are their texts; invalid ones (not a str) and list-valued separators are not modelled. *)
Record desc (V : Type) := {
  de_aboutUrl : option pystr;
  de_datatype : option (option (dtype V));
  de_default : pystr;
  de_lang : pystr;
  de_null : list pystr;
  de_propertyUrl : option pystr;
  de_required : option bool;
  de_separator : option pystr;
  de_valueUrl : option pystr;
}.
Arguments de_aboutUrl {V}. Arguments de_datatype {V}. Arguments de_default {V}. Arguments de_lang {V}.
Arguments de_null {V}. Arguments de_propertyUrl {V}. Arguments de_required {V}. Arguments de_separator {V}.
Arguments de_valueUrl {V}.
(** Description() *)
Definition desc0 {V} : desc V :=
  {| de_aboutUrl := None; de_datatype := None; de_default := []; de_lang := lit "und"; de_null := [[]];
     de_propertyUrl := None; de_required := None; de_separator := None; de_valueUrl := None |}.

(** A description with the descriptions enclosing it, nearest first: following [_parent].
    metadata.py:736-741 inherit, for attributes that may be None *)
Fixpoint inherit {V A} (get : desc V -> option A) (d : desc V) (parents : list (desc V)) : option A :=
  match get d with
  | Some a => Some a
  | None => match parents with
            | [] => None
            | p :: ps => inherit get p ps
            end
  end.
(** inherit for an attribute that is never None *)
Definition inherit_str {V} (get : desc V -> pystr) (d : desc V) (parents : list (desc V)) : pystr := get d.
(** metadata.py:743-747 inherit_null *)
Fixpoint inherit_null {V} (d : desc V) (parents : list (desc V)) : list pystr :=
  match de_null d with
  | [[]] => match parents with
            | [] => de_null d
            | p :: ps => inherit_null p ps
            end
  | n => n
  end.

(** Column: metadata.py:758-781; suppressOutput is not modelled *)
Record column (V : Type) := {
  c_desc : desc V;
  c_name : option pystr;
  c_titles : option natlang;
  c_virtual : bool;
  c_number : option nat;
}.
Arguments c_desc {V}. Arguments c_name {V}. Arguments c_titles {V}. Arguments c_virtual {V}. Arguments c_number {V}.

Definition nonempty (s : pystr) : bool := match s with [] => false | _ => true end.
(** '_col.{}'.format(n) *)
Definition col_n (n : option nat) : pystr :=
  lit "_col." ++ match n with Some k => digits_of (N.of_nat k) | None => lit "None" end.
(** self.titles and self.titles.getfirst(): None if titles is None, empty, or without plain title *)
Definition first_title {V} (c : column V) : res (option pystr) :=
  match c_titles c with
  | Some (t :: ts) => nl_getfirst (t :: ts) None
  | _ => Ok None
  end.
(** metadata.py:783-786 __str__, 796-798 header *)
Definition header {V} (c : column V) : res pystr :=
  match c_name c with
  | Some (x :: n) => Ok (x :: n)
  | _ =>
      t <- first_title c ;;
      match t with
      | Some (x :: s) => Ok (x :: s)
      | _ => Ok (col_n (c_number c))
      end
  end.
(** metadata.py:788-794 has_title: false, true (None here), or the language of the matching title *)
Inductive title_match := NoTitle | ByName | ByLang (tag : pystr).
Definition has_title {V} (c : column V) (v : pystr) : title_match :=
  if match c_name c with Some n => nonempty n && str_eqb n v | None => false end then ByName
  else match find (fun kv => str_mem v (snd kv)) (getdef (c_titles c) []) with
       | Some (Some (x :: t), _) => ByLang (x :: t)
       | Some _ => ByLang (lit "und")
       | None => NoTitle
       end.

Section Cells.
Context {V : Type} (sc : scalars V).

(** The settings col.read and col.write use *)
Record settings := {
  st_required : bool;
  st_null : list pystr;
  st_default : pystr;
  st_separator : option pystr;    (* None also for '' *)
  st_datatype : option (dtype V);
}.
Definition nonempty_opt (o : option pystr) : option pystr := match o with Some (x :: s) => Some (x :: s) | _ => None end.
(** metadata.py:801-805, 839-841: the inherited settings of a column *)
Definition settings_of (c : desc V) (parents : list (desc V)) : settings :=
  {| st_required := getdef (inherit de_required c parents) false;
     st_null := inherit_null c parents;
     st_default := inherit_str de_default c parents;
     st_separator := nonempty_opt (inherit de_separator c parents);
     st_datatype := getdef (inherit de_datatype c parents) None |}.

(** datatype.read on None or a str, then as a scalar; without datatype the str itself *)
Definition read_elem (dt : option (dtype V)) (o : option pystr) : res (option V) :=
  match o with
  | None => Ok None
  | Some s => match dt with
              | Some t => v <- dt_reads t s ;; Ok (Some v)
              | None => Ok (Some (s_str sc s))
              end
  end.
(** [vv or default], [None if vv in null] *)
Definition or_default (st : settings) (v : pystr) : pystr := match v with [] => st_default st | _ => v end.
Definition nulled (st : settings) (v : pystr) : option pystr := if str_mem v (st_null st) then None else Some v.

(** metadata.py:800-836 read; the second component tells whether warnings were issued *)
Definition col_read (strict : bool) (st : settings) (v : pystr) : res (pyval V) * bool :=
  let v := or_default st v in
  if st_required st && str_mem v (st_null st) then (Err ValueError, negb strict)
  else
    match st_separator st with
    | Some sep =>
        match v with
        | [] => (Ok (PList []), false)
        | _ =>
            if str_mem v (st_null st) then (Ok PNone, false)
            else
              let parts := map (fun vv => nulled st (or_default st vv)) (split sep v) in
              match mapM (read_elem (st_datatype st)) parts with
              | Ok l => (Ok (PList l), false)
              | Err ValueError => if strict then (Err ValueError, false)
                                  else (Ok (PList (map (option_map (s_str sc)) parts)), true)
              | Err e => (Err e, false)
              end
        end
    | None =>
        ((o <- read_elem (st_datatype st) (nulled st v) ;;
          Ok (match o with Some x => POne x | None => PNone end)), false)
    end.
(** whether datatype.read issues a warning meanwhile: metadata.py:826-836 *)
Fixpoint elems_noise (t : dtype V) (l : list (option pystr)) : bool :=
  match l with
  | [] => false
  | None :: l => elems_noise t l
  | Some s :: l => dt_noisy t s || match dt_reads t s with Ok _ => elems_noise t l | Err _ => false end
  end.
Definition col_noise (st : settings) (v : pystr) : bool :=
  let v := or_default st v in
  if st_required st && str_mem v (st_null st) then false
  else
    match st_datatype st with
    | None => false
    | Some t =>
        match st_separator st with
        | Some sep => match v with
                      | [] => false
                      | _ => if str_mem v (st_null st) then false
                             else elems_noise t (map (fun vv => nulled st (or_default st vv)) (split sep v))
                      end
        | None => elems_noise t [nulled st v]
        end
    end.

(** what fmt(v) returns: metadata.py:843-848.  None stands for null[0], an IndexError for null = [] *)
Definition fmt_none (st : settings) : res cell :=
  match st_null st with n :: _ => Ok (CStr n) | [] => Err IndexError end.
Definition fmt_one (st : settings) (o : option V) : res cell :=
  match o with
  | None => fmt_none st
  | Some v => match st_datatype st with
              | Some t => s <- dt_fmt t v ;; Ok (CStr s)
              | None => Ok (s_cell sc v)
              end
  end.
(** an item of sep.join(...): TypeError unless a str *)
Definition join_item (c : cell) : res pystr := match c with CStr s => Ok s | _ => Err TypeError end.
(** metadata.py:838-852 write *)
Definition col_write (st : settings) (v : pyval V) : res cell :=
  match st_separator st with
  | Some sep =>
      items <- match v with
               | PNone => Ok []
               | PList l => Ok l
               | POne x => if s_truthy sc x then xs <- s_iter sc x ;; Ok (map Some xs) else Ok []
               end ;;
      cells <- mapM (fmt_one st) items ;;
      parts <- mapM join_item cells ;;
      Ok (CStr (join sep parts))
  | None =>
      match v with
      | PNone => fmt_none st
      | POne x => fmt_one st (Some x)
      | PList l => match st_datatype st with
                   | Some t => s <- dt_fmt_list t l ;; Ok (CStr s)
                   | None => Ok (COther (s_repr sc l))
                   end
      end
  end.
End Cells.
Arguments st_required {V}. Arguments st_null {V}. Arguments st_default {V}. Arguments st_separator {V}. Arguments st_datatype {V}.
