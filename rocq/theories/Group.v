(** metadata.TableGroup: foreign keys and referential integrity, metadata.py:1535-1644;
    metadata.CSVW.is_valid, metadata.py:1690-1719. *)
From Verif Require Import PyStr Dsv Json NatLang Column Schema Table.

Section Group.
Context {V : Type}.
Variable veq : V -> V -> bool.   (* == of scalars, see Table.v *)

(** A table of the group: local_name (metadata.py:1218-1220), its columns, keys, and what
    iterdicts() yields: [g_iter log] for strict=True, [g_lax] for strict=False (see Table.iterdicts) *)
Record gtable := {
  g_name : pystr;
  g_cols : list (tcol V);
  g_pk : option (list pystr);
  g_fkeys : list fkey;
  g_iter : bool -> @iterout V;
  g_lax : @iterout V;
}.

(** the table with this file: Table.iterdicts, strictly (with or without a log) and not *)
Definition of_table (sc : scalars V) (expand : pystr -> dict V -> res pystr) (lim : N) (dl : dialect) (lang : pystr)
  (name : pystr) (cols : list (tcol V)) (pk : option (list pystr)) (fks : list fkey) (file : pystr) : gtable :=
  {| g_name := name; g_cols := cols; g_pk := pk; g_fkeys := fks;
     g_iter := fun log => iterdicts sc expand lim dl lang true log cols file;
     g_lax := iterdicts sc expand lim dl lang false false cols file |}.

(** metadata.py:1536-1538 tabledict: the last table of a name *)
Definition tabledict (ts : list gtable) : list (pystr * gtable) :=
  dset_all str_eqb [] (map (fun t => (g_name t, t)) ts).

(** metadata.py:1540-1548 foreign_keys: referenced table, its columns, referencing table, its columns.
    A reference without resource raises AttributeError, an unknown table KeyError. *)
Definition fk4 := (gtable * list pystr * gtable * list pystr)%type.
Definition f_target (x : fk4) : gtable := fst (fst (fst x)).
Definition f_key (x : fk4) : list pystr := snd (fst (fst x)).
Definition f_child (x : fk4) : gtable := snd (fst x).
Definition f_ref (x : fk4) : list pystr := snd x.
Definition resolve_fk (ts : list gtable) (t : gtable) (fk : fkey) : res fk4 :=
  match fk_resource fk with
  | None => Err AttributeError
  | Some r => match dget str_eqb (tabledict ts) r with
              | None => Err KeyError
              | Some target => Ok (target, fk_refcols fk, t, fk_cols fk)
              end
  end.
Definition internal (fk : fkey) : bool := match fk_schemaReference fk with None => true | Some _ => false end.
Definition foreign_keys (ts : list gtable) : res (list fk4) :=
  mapM (fun tf => resolve_fk ts (fst tf) (snd tf))
    (flat_map (fun t => map (fun fk => (t, fk)) (filter internal (g_fkeys t))) ts).

(** metadata.py:1550-1568 validate_schema(strict=False).  [scolumn.datatype] is not inherited. *)
Definition own_base (c : tcol V) : option pystr :=
  match de_datatype (c_desc (tc_col c)) with Some (Some t) => Some (dt_base t) | _ => None end.
Definition check_pair (st ct : gtable) (p : pystr * pystr) : res unit :=
  s <- get_column (g_cols st) (fst p) ;;
  t <- get_column (g_cols ct) (snd p) ;;
  match s, t with
  | Some s, Some t =>
      match own_base s, own_base t with
      | Some a, Some b => if str_eqb a b then Ok tt else Err ValueError
      | _, _ => Ok tt
      end
  | _, _ => Err ValueError
  end.
Definition check_fk (x : fk4) : res unit :=
  if Nat.eqb (length (f_key x)) (length (f_ref x))
  then _ <- mapM (check_pair (f_target x) (f_child x)) (combine (f_key x) (f_ref x)) ;; Ok tt
  else Err ValueError.
Definition validate_schema (ts : list gtable) : res unit :=
  match (fks <- foreign_keys ts ;; _ <- mapM check_fk fks ;; Ok tt) with
  | Err KeyError | Err AssertionError => Err ValueError
  | r => r
  end.

(** ** check_referential_integrity: metadata.py:1570-1644 *)
(** operator.itemgetter, given ks: a value, or a tuple for several columns *)
Inductive keyval := KOne (v : pyval V) | KTup (l : list (pyval V)).
Definition lookup (d : dict V) (k : pystr) : res (pyval V) :=
  match dget str_eqb d k with Some v => Ok v | None => Err KeyError end.
Definition get_kv (ks : list pystr) (d : dict V) : res keyval :=
  match ks with
  | [] => Err TypeError
  | [k] => v <- lookup d k ;; Ok (KOne v)
  | _ => l <- mapM (lookup d) ks ;; Ok (KTup l)
  end.
Definition kv_hashable (k : keyval) : bool := match k with KOne v => hashable v | KTup l => forallb hashable l end.
Definition kv_eq (a b : keyval) : bool :=
  match a, b with
  | KOne x, KOne y => pv_eq veq x y
  | KTup x, KTup y => key_eq veq x y
  | _, _ => false
  end.
(** [k in seen]: TypeError for lists *)
Definition kv_in (k : keyval) (seen : list keyval) : res bool :=
  if kv_hashable k then Ok (existsb (kv_eq k) seen) else Err TypeError.

(** metadata.py:1606-1612: one row of the referenced table; the flag says whether some key was there already *)
Fixpoint see_row (d : dict V) (gs : list (list pystr * list keyval)) : res (bool * list (list pystr * list keyval)) :=
  match gs with
  | [] => Ok (false, [])
  | (ks, seen) :: rest =>
      k <- get_kv ks d ;;
      b <- kv_in k seen ;;
      r <- see_row d rest ;;
      Ok (b || fst r, (ks, k :: seen) :: snd r)
  end.
Fixpoint see_rows (rows : list (nat * dict V)) (endr : option exn) (gs : list (list pystr * list keyval))
  : res (bool * list (list pystr * list keyval)) :=
  match rows with
  | [] => match endr with Some e => Err e | None => Ok (false, gs) end
  | (_, d) :: rest =>
      r <- see_row d gs ;;
      r' <- see_rows rest endr (snd r) ;;
      Ok (fst r || fst r', snd r')
  end.

(** messages of the check: referencing table, line, referenced table *)
Inductive cmsg := NotFound (child : pystr) (line : nat) (target : pystr) | SchemaError.
(** messages, then the outcome *)
Definition wres (A : Type) := (list cmsg * res A)%type.
Definition wbind {A B} (m : wres A) (f : A -> wres B) : wres B :=
  match snd m with
  | Ok a => (fst m ++ fst (f a), snd (f a))
  | Err e => (fst m, Err e)
  end.
Definition wret {A} (a : A) : wres A := ([], Ok a).
Definition wfail {A} (e : exn) : wres A := ([], Err e).
Definition wlift {A} (r : res A) : wres A := ([], r).
(** metadata.py:226-230 log_or_raise; false = not successful *)
Definition complain (log : bool) (m : cmsg) : wres bool := if log then ([m], Ok false) else wfail ValueError.
(** a loop of checks, all of which must succeed *)
Fixpoint wall {A} (f : A -> wres bool) (l : list A) : wres bool :=
  match l with
  | [] => wret true
  | a :: rest => wbind (f a) (fun b => wbind (wall f rest) (fun b' => wret (b && b')))
  end.
Definition of_opt (o : option V) : pyval V := match o with Some v => POne v | None => PNone end.
Definition is_none (v : pyval V) : bool := match v with PNone => true | _ => false end.

(** metadata.py:1626-1640 *)
Definition check_ref (log single : bool) (m : cmsg) (seen : list keyval) (k : keyval) : wres bool :=
  if negb single && match k with KTup l => existsb is_none l | KOne _ => false end then wret true
  else wbind (wlift (kv_in k seen)) (fun b => if b then wret true else complain log m).
(** metadata.py:1615-1640: a row of the referencing table.  [None in colref] is a TypeError for a value
    that is not a tuple, unless it is a str or bytes; such cases do not pass validate_schema (OtherError here). *)
Definition check_row (log : bool) (key ref : list pystr) (child target : pystr) (seen : list keyval) (lr : nat * dict V) : wres bool :=
  let single := Nat.eqb (length key) 1 in
  let m := NotFound child (fst lr) target in
  wbind (wlift (get_kv ref (snd lr))) (fun k =>
    match k with
    | KOne PNone => wret true
    | KOne (PList l) => if single then wall (fun o => check_ref log single m seen (KOne (of_opt o))) l
                        else wfail OtherError
    | KOne v => if single then check_ref log single m seen k else wfail OtherError
    | KTup _ => check_ref log single m seen k
    end).
Definition check_child (log : bool) (key ref : list pystr) (child target : gtable) (seen : list keyval) : wres bool :=
  match ref with
  | [] => wfail TypeError
  | _ => let o := g_iter child log in
         wbind (wall (check_row log key ref (g_name child) (g_name target) seen) (io_rows o)) (fun b =>
           match io_end o with Some e => wfail e | None => wret b end)
  end.

(** itertools.groupby: runs of elements of equal key *)
Fixpoint group_runs {A} (same : A -> A -> bool) (l : list A) : list (list A) :=
  match l with
  | [] => []
  | a :: rest =>
      match group_runs same rest with
      | (b :: g) :: gs => if same a b then (a :: b :: g) :: gs else [a] :: (b :: g) :: gs
      | gs => [a] :: gs
      end
  end.
(** order of str: by code points; of lists of str *)
Fixpoint str_cmp (a b : pystr) : comparison :=
  match a, b with
  | [], [] => Eq | [], _ => Lt | _, [] => Gt
  | x :: a', y :: b' => match N.compare x y with Eq => str_cmp a' b' | c => c end
  end.
Fixpoint strs_cmp (a b : list pystr) : comparison :=
  match a, b with
  | [], [] => Eq | [], _ => Lt | _, [] => Gt
  | x :: a', y :: b' => match str_cmp x y with Eq => strs_cmp a' b' | c => c end
  end.
Definition then_cmp (a b : comparison) : comparison := match a with Eq => b | _ => a end.
Definition fk_cmp (x y : fk4) : comparison :=
  then_cmp (str_cmp (g_name (f_target x)) (g_name (f_target y)))
    (then_cmp (strs_cmp (f_key x) (f_key y)) (str_cmp (g_name (f_child x)) (g_name (f_child y)))).
(** sorted(): stable *)
Fixpoint insert_fk (x : fk4) (l : list fk4) : list fk4 :=
  match l with
  | [] => [x]
  | y :: rest => match fk_cmp x y with Gt => y :: insert_fk x rest | _ => x :: y :: rest end
  end.
Definition sort_fks (l : list fk4) : list fk4 := fold_right insert_fk [] l.

Definition strs_eqb (a b : list pystr) : bool := match strs_cmp a b with Eq => true | _ => false end.
(** metadata.py:1599-1643: the foreign keys referencing one table *)
Definition check_group (strict log : bool) (grp : list fk4) : wres bool :=
  match grp with
  | [] => wret true
  | x :: _ =>
      let table := f_target x in
      let t_fkeys := group_runs (fun a b => strs_eqb (f_key a) (f_key b)) grp in
      let keys := map (fun g => match g with y :: _ => f_key y | [] => [] end) t_fkeys in
      if existsb (fun ks => match ks with [] => true | _ => false end) keys then wfail TypeError
      else
        let o := g_iter table log in
        wbind (wlift (see_rows (io_rows o) (io_end o) (map (fun ks => (ks, [])) keys))) (fun r =>
          wbind (wall (fun gk => wall (fun y => check_child log (fst (snd gk)) (f_ref y) (f_child y) table (snd (snd gk))) (fst gk))
                   (combine t_fkeys (snd r)))
            (fun b => wret (b && negb (strict && fst r))))
  end.

(** metadata.py:1577-1583: strict: no null in any foreign key column *)
Definition null_fk (cols : list pystr) (d : dict V) : bool :=
  existsb (fun c => match dget str_eqb d c with Some PNone | None => true | Some _ => false end) cols.
Definition strict_nulls (ts : list gtable) : res unit :=
  _ <- mapM (fun tf => let o := g_iter (fst tf) false in
                       if existsb (fun lr => null_fk (fk_cols (snd tf)) (snd lr)) (io_rows o) then Err ValueError
                       else match io_end o with Some e => Err e | None => Ok tt end)
         (flat_map (fun t => map (fun fk => (t, fk)) (g_fkeys t)) ts) ;;
  Ok tt.

(** metadata.py:1570-1644.  Messages of the readings themselves are not included. *)
Definition check_referential_integrity (strict log : bool) (ts : list gtable) : wres bool :=
  wbind (wlift (if strict then strict_nulls ts else Ok tt)) (fun _ =>
  wbind (match validate_schema ts with
         | Ok _ => wret true
         | Err ValueError => complain log SchemaError
         | Err e => wfail e
         end) (fun b =>
  wbind (wlift (foreign_keys ts)) (fun fks =>
  wbind (wall (check_group strict log)
           (group_runs (fun a b => str_eqb (g_name (f_target a)) (g_name (f_target b))) (sort_fks fks))) (fun b' =>
  wret (b && b'))))).

(** ** CSVW.is_valid: metadata.py:1690-1719 *)
(** warnings of the readings done by a successful check_referential_integrity(strict=True) without log:
    the referencing table is read once for each of its foreign keys and again for each internal one;
    the referenced table once for each group of keys *)
Definition integrity_warnings (ts : list gtable) : list warning :=
  flat_map (fun t => flat_map (fun fk => io_warns (g_iter t false)
                                ++ if internal fk then
                                     match fk_resource fk with
                                     | Some r => match dget str_eqb (tabledict ts) r with
                                                 | Some target => io_warns (g_iter target false)
                                                 | None => [] end
                                     | None => [] end
                                   else []) (g_fkeys t)) ts.
(** reading and primary key of one table: check_primary_key() is called without log *)
Definition validate_table (t : gtable) : res (list warning) :=
  match io_end (g_lax t) with
  | Some e => Err e
  | None =>
      b <- snd (check_primary_key veq false (g_pk t) (g_iter t true)) ;;
      Ok (io_warns (g_lax t)
          ++ match g_pk t with Some (_ :: _) => io_warns (g_iter t true) | _ => [] end
          ++ if b then [] else [DuplicatePrimaryKey])
  end.
(** [loading]: warnings recorded while the metadata was loaded.  Warnings are recorded whatever their number;
    which of several equal ones are recorded does not matter. *)
Definition is_valid (loading : list warning) (ts : list gtable) : res bool :=
  match loading with
  | _ :: _ => Ok false
  | [] =>
      ws <- mapM validate_table ts ;;
      b <- snd (check_referential_integrity true false ts) ;;
      Ok (match concat ws ++ integrity_warnings ts ++ (if b then [] else [IntegrityFailed]) with [] => true | _ => false end)
  end.
End Group.
