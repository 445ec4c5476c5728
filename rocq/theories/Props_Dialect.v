(** Property theorems C11-C13.  Vocabulary: DialectSpec.v, NamesSpec.v. *)
From Verif Require Import PyStr Dsv DsvSpec Json Dialects DialectSpec DialectProofs Names NamesSpec NamesProofs.

(** * C11 *)
(** rebuilding from asdict(), with or without defaults *)
Theorem c11_asdict_roundtrip : forall codec, codec (lit "utf-8") = CKnown -> forall kw o omit,
  dialect_init codec kw = Ok o -> dialect_init codec (dialect_asdict codec omit o) = Ok o.
Proof. exact dialect_asdict_roundtrip. Qed.
Print Assumptions c11_asdict_roundtrip.

(** every constructed dialect has exactly the documented attributes ... *)
Theorem c11_attributes : forall codec kw o, dialect_init codec kw = Ok o -> map fst o = dialect_names.
Proof. exact dialect_init_names. Qed.
Print Assumptions c11_attributes.

(** ... with values of the required types, except that quoteChar may be a list *)
Theorem c11_typed : forall codec, codec (lit "utf-8") = CKnown -> forall kw o n v,
  dialect_init codec kw = Ok o -> dget str_eqb o n = Some v ->
  attr_ok codec n v \/ (n = lit "quoteChar" /\ is_listv v).
Proof. exact dialect_init_typed. Qed.
Print Assumptions c11_typed.

Theorem c11_quotechar_list_refuted : exists kw o,
  dialect_init codec_all kw = Ok o
  /\ dget str_eqb o (lit "quoteChar") = Some (JList [JStr (lit "a"); JStr (lit "b")]).
Proof. exact quotechar_list_witness. Qed.
Print Assumptions c11_quotechar_list_refuted.

(** admissible values are kept, absent ones replaced by the documented default *)
Theorem c11_keeps_valid : forall codec, codec (lit "utf-8") = CKnown -> forall kw o n v,
  dialect_init codec kw = Ok o -> In n dialect_names ->
  match dget str_eqb kw n with Some x => x = v /\ attr_ok codec n v | None => v = dialect_default n end ->
  dget str_eqb o n = Some v.
Proof. exact dialect_init_keeps. Qed.
Print Assumptions c11_keeps_valid.

(** inadmissible scalars are replaced by the default *)
Theorem c11_replaces_invalid : forall codec, codec (lit "utf-8") = CKnown -> forall kw o n x,
  dialect_init codec kw = Ok o -> In n dialect_names ->
  dget str_eqb kw n = Some x -> ~ attr_ok codec n x -> ~ is_listv x -> (n = lit "trim" -> ~ is_bool x) ->
  dget str_eqb o n = Some (dialect_default n).
Proof. exact dialect_init_replaces. Qed.
Print Assumptions c11_replaces_invalid.

(** * C12 *)
Theorem c12_assign_then_use : forall a sets ops,
  Forall is_set sets -> Forall (fun op => ~ sets_cached_input op) ops ->
  let o := run_ops (fresh a) (sets ++ ops) in
  fst (get_params o) = params_of (o_attrs o) /\ fst (get_trim o) = trimming_of (o_attrs o).
Proof. exact params_current'. Qed.
Print Assumptions c12_assign_then_use.

Theorem c12_updated : forall codec o kw o',
  updated codec o kw = Ok o' ->
  fst (get_params o') = params_of (o_attrs o') /\ fst (get_trim o') = trimming_of (o_attrs o')
  /\ exists base, dialect_init codec (o_attrs o) = Ok base /\ o_attrs o' = dset_all str_eqb base kw.
Proof. exact updated_fresh'. Qed.
Print Assumptions c12_updated.

(** use, then assign: the old values stay in force *)
Theorem c12_stale_cache_refuted : exists a ops,
  dialect_init codec_all [] = Ok a
  /\ let o := run_ops (fresh a) ops in
     fst (get_params o) <> params_of (o_attrs o) /\ fst (get_trim o) <> trimming_of (o_attrs o).
Proof. exact stale_witness. Qed.
Print Assumptions c12_stale_cache_refuted.

Theorem c12_updated_unchecked_refuted : exists a o',
  dialect_init codec_all [] = Ok a /\ updated codec_all (fresh a) [(lit "trim", JStr (lit "bogus"))] = Ok o'
  /\ dialect_init codec_all (o_attrs o') = Err ValueError.
Proof. exact updated_unchecked_witness. Qed.
Print Assumptions c12_updated_unchecked_refuted.

(** the typed dialects of C02-C10 are the same objects *)
Theorem c12_typed_params : forall a d,
  to_dialect a = Some d ->
  params_of a = (k <- as_python_formatting_parameters d ;; Ok (params_of_kw k))
  /\ trimming_of a = Ok (d_trim d).
Proof. exact typed_params'. Qed.
Print Assumptions c12_typed_params.

Theorem c11_constructed_typed : forall codec, codec (lit "utf-8") = CKnown -> forall kw o lts,
  dialect_init codec kw = Ok o ->
  dget str_eqb o (lit "lineTerminators") = Some (JList (map JStr lts)) ->
  (forall l, dget str_eqb o (lit "quoteChar") <> Some (JList l)) ->
  exists d, to_dialect o = Some d.
Proof. exact constructed_typed. Qed.
Print Assumptions c11_constructed_typed.

(** * C13 *)
Theorem c13_slug_chars : forall U rw lw s r, slug U rw lw s = Ok r ->
  Forall (fun c => alnum c \/ (rw = false /\ c = SPACE)) r.
Proof. exact slug_chars. Qed.
Print Assumptions c13_slug_chars.

Theorem c13_slug_lowercase : forall U s r, unicode_ok U -> slug U true true s = Ok r -> Forall lower_alnum r.
Proof. exact slug_lowercase. Qed.
Print Assumptions c13_slug_lowercase.

(** slug never fails on text without control characters, and otherwise only with AssertionError *)
Theorem c13_slug_total : forall U rw lw s, unicode_ok U -> (forall c, In c s -> ~ bad_control c) ->
  exists r, slug U rw lw s = Ok r.
Proof. exact slug_total. Qed.
Print Assumptions c13_slug_total.
Theorem c13_slug_errors : forall U rw lw s e, slug U rw lw s = Err e -> e = AssertionError.
Proof. exact slug_errors. Qed.
Print Assumptions c13_slug_errors.
Theorem c13_slug_ascii : forall U lw s, unicode_ok U -> ascii s -> (forall c, In c s -> ~ bad_control c) ->
  slug U true lw s = Ok (filter (fun c => is_letter c || is_digit c) (if lw then ascii_lower s else s)).
Proof. exact slug_ascii. Qed.
Print Assumptions c13_slug_ascii.

Theorem c13_normalize_valid : forall U s r, normalize_name U s = Ok r -> attribute_name r.
Proof. exact normalize_name_valid. Qed.
Print Assumptions c13_normalize_valid.
Theorem c13_normalize_total : forall U s, unicode_ok U -> (forall c, In c s -> ~ bad_control c) ->
  exists r, normalize_name U s = Ok r.
Proof. exact normalize_name_total. Qed.
Print Assumptions c13_normalize_total.
Theorem c13_normalize_fixed : forall U s, unicode_ok U -> attribute_name s -> ~ In s kwlist ->
  normalize_name U s = Ok s.
Proof. exact normalize_name_fixed. Qed.
Print Assumptions c13_normalize_fixed.
Theorem c13_normalize_idempotent : forall U s r, unicode_ok U -> normalize_name U s = Ok r -> ~ In r kwlist ->
  normalize_name U r = Ok r.
Proof. exact normalize_name_idem. Qed.
Print Assumptions c13_normalize_idempotent.
Theorem c13_normalize_keyword : forall U k, In k kwlist -> normalize_name U k = Ok (k ++ lit "_").
Proof. exact normalize_name_keyword. Qed.
Print Assumptions c13_normalize_keyword.

(** a result can be a keyword, start with '_', or coincide for different names *)
Theorem c13_normalize_refuted : forall U, unicode_ok U ->
  normalize_name U (lit "cl/ass") = Ok (lit "class") /\ In (lit "class") kwlist
  /\ normalize_name U (lit "1") = Ok (lit "_1")
  /\ normalize_name U (lit "a-b") = normalize_name U (lit "a_b").
Proof. exact normalize_keyword_witness. Qed.
Print Assumptions c13_normalize_refuted.
Theorem c13_normalize_control_refuted : forall U, unicode_ok U -> normalize_name U [0] = Err AssertionError.
Proof. exact normalize_control_witness. Qed.
Print Assumptions c13_normalize_control_refuted.

(** NamedTupleReader: one field per column, cell by cell, iff the normalised names are usable *)
Theorem c13_named_tuples : forall U fns names restkey restval row,
  Forall2 (fun k n => normalize_name U k = Ok n) fns names ->
  Forall usable_field names -> NoDup names -> (forall k, restkey = Some k -> ~ In k fns) ->
  nt_item U fns restkey restval row = Ok (combine names (padded fns row restval)).
Proof. exact named_tuple_item. Qed.
Print Assumptions c13_named_tuples.
Theorem c13_named_tuples_unusable : forall U fns names restkey restval row,
  Forall2 (fun k n => normalize_name U k = Ok n) fns names ->
  ~ (Forall usable_field names /\ NoDup names) ->
  nt_item U fns restkey restval row = Err ValueError.
Proof. exact named_tuple_unusable. Qed.
Print Assumptions c13_named_tuples_unusable.
