(** Vocabulary of C23. *)
From Verif Require Import PyStr Datatype.

Section Spec.
Context {V : Type} (ops : vops V).
(** [rel v b] for the comparison of a value with a bound; an unordered pair (float nan) violates nothing *)
Definition related (ok : comparison -> Prop) (v b : V) : Prop :=
  match v_cmp ops v b with Ok (Some c) => ok c | _ => True end.
(** the length of a value, for values which have one; falsy values count as empty *)
Definition size_of (v : V) : option nat := if v_truthy ops v then v_len ops v else Some 0%nat.
Definition satisfies (F : facets V) (v : V) (bounds_apply : bool) : Prop :=
  (forall n, size_of v = Some n ->
     (forall k, fc_length F = Some k -> Z.of_nat n = k) /\ (forall k, fc_minLength F = Some k -> (k <= Z.of_nat n)%Z)
     /\ (forall k, fc_maxLength F = Some k -> (Z.of_nat n <= k)%Z))
  /\ (bounds_apply = true ->
      (forall b, fc_minimum F = Some b \/ fc_minInclusive F = Some b -> related (fun c => c <> Lt) v b)
      /\ (forall b, fc_maximum F = Some b \/ fc_maxInclusive F = Some b -> related (fun c => c <> Gt) v b)
      /\ (forall b, fc_minExclusive F = Some b -> related (fun c => c = Gt) v b)
      /\ (forall b, fc_maxExclusive F = Some b -> related (fun c => c = Lt) v b)).
Definition bound_of (F : facets V) (b : V) : Prop :=
  In (Some b) [fc_minimum F; fc_maximum F; fc_minInclusive F; fc_maxInclusive F; fc_minExclusive F; fc_maxExclusive F].
(** v can be compared with every bound *)
Definition comparable (F : facets V) (v : V) : Prop := forall b, bound_of F b -> exists r, v_cmp ops v b = Ok r.
(** a bound that is not 0 *)
Definition stated (o : option V) (b : V) : Prop := o = Some b /\ v_truthy ops b = true.
(** what the constructor guarantees of the stored facets *)
Record consistent (c : dclass) (F : facets V) : Prop := {
  (* lengths do not contradict each other *)
  cs_len : (forall l m, fc_length F = Some l -> fc_minLength F = Some m -> (m <= l)%Z)
           /\ (forall l m, fc_length F = Some l -> fc_maxLength F = Some m -> (l <= m)%Z)
           /\ (forall a b, fc_minLength F = Some a -> fc_maxLength F = Some b -> (a <= b)%Z);
  (* no bound (other than 0, '') on unordered types, no length (other than 0) on types without length *)
  cs_unordered : has_order c = false -> forall o b, In o [fc_minimum F; fc_maximum F; fc_minInclusive F; fc_maxInclusive F; fc_minExclusive F; fc_maxExclusive F] -> ~ stated o b;
  cs_nolen : has_length c = false -> forall z, In (Some z) [fc_length F; fc_minLength F; fc_maxLength F] -> z = 0%Z;
  (* not both kinds of lower, upper bound, and the interval they describe is not empty *)
  cs_lower : forall a b, stated (fc_minInclusive F) a -> ~ stated (fc_minExclusive F) b;
  cs_upper : forall a b, stated (fc_maxInclusive F) a -> ~ stated (fc_maxExclusive F) b;
  cs_ii : forall lo hi, stated (fc_minInclusive F) lo -> stated (fc_maxInclusive F) hi -> related (fun c => c <> Lt) hi lo;
  cs_ie : forall lo hi, stated (fc_minInclusive F) lo -> stated (fc_maxExclusive F) hi -> related (fun c => c = Gt) hi lo;
  cs_ei : forall lo hi, stated (fc_minExclusive F) lo -> stated (fc_maxInclusive F) hi -> related (fun c => c = Gt) hi lo;
  cs_ee : forall lo hi, stated (fc_minExclusive F) lo -> stated (fc_maxExclusive F) hi -> related (fun c => c = Gt) hi lo }.
Definition total_on (F : facets V) : Prop := forall a b, bound_of F a -> bound_of F b -> exists r, v_cmp ops a b = Ok r.
End Spec.
(** the types which have a length, and the types whose values are ordered *)
Definition length_types : list pystr :=
  map lit ["string"; "anyURI"; "NMTOKEN"; "normalizedString"; "QName"; "gDay"; "gMonth"; "gMonthDay"; "gYear"; "gYearMonth";
           "xml"; "html"; "json"; "base64Binary"; "binary"; "hexBinary"]%string.
Definition bounded_types : list pystr :=
  map lit ["datetime"; "dateTime"; "date"; "dateTimeStamp"; "time"; "decimal"; "integer"; "int"; "unsignedInt"; "unsignedShort";
           "unsignedLong"; "unsignedByte"; "short"; "long"; "byte"; "nonNegativeInteger"; "positiveInteger"; "nonPositiveInteger";
           "negativeInteger"; "float"; "number"; "double"]%string.
Definition duration_types : list pystr := map lit ["duration"; "dayTimeDuration"; "yearMonthDuration"]%string.
