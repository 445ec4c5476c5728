(** Witnesses for refuted variants and concrete instances of the hypotheses of
    the theorems in Props_Dsv.v. *)
From Verif Require Import PyStr PyCsv Dsv DsvSpec DsvProofs DsvProofs2 DsvProofs4 DsvProofs5.

Lemma dict_reader_rows lim d kw fns restkey restval file rows e nonempty :
  unicode_reader lim d kw file = Ok (rows, e) ->
  Selected (fun r => r <> []) (match fns with Some _ => rows | None => tl rows end) nonempty ->
  unicode_dict_reader lim d kw fns restkey restval file =
  Ok (match fns, rows with
      | Some f, _ => map (dict_item f restkey restval) nonempty
      | None, f :: _ => map (dict_item f restkey restval) nonempty
      | None, [] => []
      end, e).
Proof.
  intros Hr Hs. unfold unicode_dict_reader. rewrite Hr. cbn [bind fst snd].
  apply (Selected_filter (fun r : list pystr => negb (match r with [] => true | _ => false end))) in Hs.
  2:{ intros x; destruct x; cbn; intuition congruence. }
  unfold dict_rows. destruct fns as [f|]; [rewrite Hs; reflexivity|].
  destruct rows as [|f rows]; [reflexivity|]. cbn [tl] in Hs. rewrite Hs; reflexivity.
Qed.

Definition big : N := 131072.

Lemma leading_bom_witness : exists rows t,
  cells_within 131072 (texts rows)
  /\ write_file py_modern 131072 None kw0 rows = Ok t
  /\ unicode_reader 131072 None kw0 t <> Ok (texts rows, None).
Proof.
  exists [[CStr [BOM; 97]; CStr [98]]]. eexists. split; [|split; [vm_compute; reflexivity|vm_compute; discriminate]].
  intros row s [<-|[]] [<-|[<-|[]]]; cbn; lia.
Qed.

(** the default dialect with some settings changed *)
Definition plain_dialect (dq skip : bool) : dialect :=
  {| d_encoding := lit "utf-8"; d_lineTerminators := [[CR; LF]; [LF]]; d_quoteChar := Some [34];
     d_doubleQuote := dq; d_skipRows := 0; d_commentPrefix := None; d_header := true;
     d_headerRowCount := 1; d_delimiter := lit ","; d_skipColumns := 0; d_skipBlankRows := false;
     d_skipInitialSpace := skip; d_trim := TrimFalse |}.
Lemma plain_dialect_sane dq skip : sane_dialect (plain_dialect dq skip) 44 34 [CR; LF].
Proof.
  constructor; try reflexivity; try discriminate; try (split; discriminate).
  - exists [[LF]]; reflexivity.
  - left; reflexivity.
Qed.

Lemma skip_initial_space_witness : exists d dl q term rows t,
  sane_dialect d dl q term /\ keeps_everything d /\ d_doubleQuote d = true
  /\ write_file py_modern 131072 (Some d) kw0 rows = Ok t
  /\ unicode_reader 131072 (Some d) kw0 t <> Ok (texts rows, None).
Proof.
  exists (plain_dialect true true), 44, 34, [CR; LF], [[CStr (lit " a"); CStr (lit "b")]]. eexists.
  split; [apply plain_dialect_sane|]. split; [repeat split|]. split; [reflexivity|].
  split; [vm_compute; reflexivity|vm_compute; discriminate].
Qed.

Lemma escape_witness : exists d dl q term rows t,
  sane_dialect d dl q term /\ keeps_everything d /\ d_doubleQuote d = false /\ d_skipInitialSpace d = false
  /\ write_file py_modern 131072 (Some d) kw0 rows = Ok t
  /\ unicode_reader 131072 (Some d) kw0 t <> Ok (texts rows, None).
Proof.
  exists (plain_dialect false false), 44, 34, [CR; LF], [[CStr [97; 92; 98]]]. eexists.
  split; [apply plain_dialect_sane|]. split; [repeat split|]. split; [reflexivity|]. split; [reflexivity|].
  split; [vm_compute; reflexivity|vm_compute; discriminate].
Qed.

Lemma start_line_witness : exists file row,
  reader_with_line_number 131072 None kw0 file = Ok ([(2%nat, row)], None).
Proof. exists ([34; 97; LF; 98; 34; LF]). eexists. vm_compute. reflexivity. Qed.

Lemma cross_fs_witness : exists file es done rest,
  rewrite py_modern 131072 false None kw0 (fun (_ : unit) _ r => Ok (tt, Some (map CStr r))) tt (Some file) = (es, Ok tt)
  /\ es = done ++ rest /\ file <> []
  /\ main (exec {| main := Some file; tmp := None |} done) = Some [].
Proof.
  exists (lit "a,b"). eexists. exists [CreateTmp; TruncTmp; AppendTmp (lit "a,b" ++ [CR; LF]); TruncMain]. eexists.
  split; [vm_compute; reflexivity|]. split; [reflexivity|]. split; [discriminate|]. reflexivity.
Qed.

Lemma filter_count_witness : exists file es n new,
  filter_rows_as_dict py_modern 131072 true None kw0 (fun _ => Ok true) (Some file) = (es, Ok 0%nat)
  /\ main (exec {| main := Some file; tmp := None |} es) = Some new
  /\ (match unicode_reader 131072 None kw0 file, unicode_reader 131072 None kw0 new with
      | Ok (a, None), Ok (b, None) => length a = (n + length b)%nat | _, _ => False end)
  /\ n <> 0%nat.
Proof.
  exists (lit "a" ++ [LF; LF] ++ lit "b" ++ [LF]). eexists. exists 1%nat. eexists.
  split; [vm_compute; reflexivity|]. split; [vm_compute; reflexivity|]. split; [vm_compute; reflexivity|discriminate].
Qed.

(** ** The hypotheses of the theorems are met by concrete non-trivial data *)
(** cells with delimiters, quotes, both kinds of line breaks, None and a number *)
Definition demo_rows : list (list cell) :=
  [[CStr (lit "a,b"); CStr [34; 34]; CNone]; [CStr [97; CR; LF; 98]; COther (lit "12"); CStr [LF]]; []; [CStr []]].
Definition demo_within : Prop := cells_within 131072 (texts demo_rows) /\ no_leading_bom (texts demo_rows).
Example demo_within_ok : demo_within.
Proof.
  split; [|discriminate]. intros row s Hr Hs.
  repeat (destruct Hr as [<-|Hr]; [repeat (destruct Hs as [<-|Hs]; [cbn; lia|]); destruct Hs|]). destruct Hr.
Qed.
Example demo_c01 : exists t, write_file py_modern 131072 None kw0 demo_rows = Ok t
   /\ unicode_reader 131072 None kw0 t = Ok (texts demo_rows, None).
Proof. apply default_roundtrip; apply demo_within_ok. Qed.

(** a dialect that is not the default: ';' separated, single quotes, LF, comments and trimming *)
Definition demo_dialect : dialect :=
  {| d_encoding := lit "utf-8"; d_lineTerminators := [[LF]]; d_quoteChar := Some [39];
     d_doubleQuote := true; d_skipRows := 1; d_commentPrefix := Some (lit "#"); d_header := true;
     d_headerRowCount := 1; d_delimiter := lit ";"; d_skipColumns := 1; d_skipBlankRows := true;
     d_skipInitialSpace := false; d_trim := TrimTrue |}.
Example demo_dialect_sane : sane_dialect demo_dialect 59 39 [LF].
Proof.
  constructor; try reflexivity; try discriminate; try (split; discriminate).
  - exists []; reflexivity.
  - right; left; reflexivity.
Qed.
Example demo_bom_safe : bom_safe demo_dialect demo_rows.
Proof. intros _ _. apply demo_within_ok. Qed.
(** what is kept of four rows: the first is within skipRows, then a comment, then data, then a blank row *)
Definition demo_parsed : list (list pystr) :=
  [[lit "x"]; [lit "#c"; lit "y"]; [lit "1"; lit " z "]; [[]]].
Example demo_kept : Selected (fun lr => ~ row_is_dropped demo_dialect lr) (number_rows 0 demo_parsed)
                             [(2%nat, [lit "1"; lit " z "])].
Proof.
  unfold demo_parsed. cbn [number_rows newlines_in concat app filter].
  repeat match goal with |- context [Nat.add ?a ?b] => let v := eval vm_compute in (a + b)%nat in change (a + b)%nat with v end.
  apply Sel_out.
  { intros H; apply H. right; right. cbn. lia. }
  apply Sel_out.
  { intros H; apply H. left. exists (lit "#"), (lit "#c"), [lit "y"].
    split; [reflexivity|]. split; [discriminate|]. split; [reflexivity|]. exists (lit "c"); reflexivity. }
  apply Sel_in.
  { intros [(p & c & cs & E1 & E2 & E3 & tl & E4)|[[Hb _]|Hlt]].
    - injection E1 as <-. injection E3 as <- <-. discriminate.
    - specialize (Hb (lit "1") (or_introl eq_refl)). discriminate.
    - cbn in Hlt. lia. }
  apply Sel_out; [|constructor].
  intros H; apply H. right; left. split; [|reflexivity]. intros c [<-|[]]; reflexivity.
Qed.
Example demo_c04 : fst (reader_iter (Some demo_dialect) demo_parsed) = [(2%nat, [lit "z"])].
Proof. vm_compute. reflexivity. Qed.
(** C05: two rows, the first with a line break inside a cell *)
Example demo_c05 :
  only_lf_or_crlf ([34; 97; LF; 98; 34; CR; LF] ++ lit "c") = true
  /\ read_lines_num (default_fmt 131072) p0 0 true (lines ([34; 97; LF; 98; 34; CR; LF] ++ lit "c"))
     = [(2%nat, [[97; LF; 98]]); (3%nat, [lit "c"])].
Proof. vm_compute. split; reflexivity. Qed.
(** C07: a visitor that raises on row 1, after row 0 has been written to the temporary file *)
Example demo_c07 : exists es,
  rewrite py_modern 131072 true None kw0
    (fun (_ : unit) i r => if Nat.eqb i 1 then Err ValueError else Ok (tt, Some (map CStr r))) tt
    (Some (lit "a" ++ [LF] ++ lit "b" ++ [LF])) = (es, Err ValueError)
  /\ tmp (exec {| main := Some (lit "a" ++ [LF] ++ lit "b" ++ [LF]); tmp := None |} es) = Some (lit "a" ++ [CR; LF]).
Proof. eexists. vm_compute. split; reflexivity. Qed.
(** C08: a dict brings its header to a new file *)
Example demo_c08 : added 0 [RDict [(lit "k", CStr (lit "v"))]] = [[CStr (lit "k")]; [CStr (lit "v")]]
                   /\ added 1 [RDict [(lit "k", CStr (lit "v"))]] = [[CStr (lit "v")]].
Proof. split; reflexivity. Qed.
Example demo_c09 :
  unicode_reader 131072 None kw0 (lit "id" ++ [LF] ++ lit "1" ++ [LF; LF] ++ lit "2" ++ [LF])
    = Ok ([[lit "id"]; [lit "1"]; []; [lit "2"]], None)
  /\ Selected (kept_row (fun d => match dget str_eqb d (lit "id") with Some v => str_eqb v (lit "1") | None => false end)
        [lit "id"]) [[lit "1"]; []; [lit "2"]] [[lit "1"]].
Proof.
  split; [vm_compute; reflexivity|].
  apply Sel_in; [split; [discriminate|reflexivity]|].
  apply Sel_out; [intros [H _]; congruence|]. apply Sel_out; [intros [_ H]; discriminate|constructor].
Qed.
Example demo_c10 :
  expected_rows [CallRows [RDict [(lit "k", CStr (lit "v"))]]; CallRows [RDict [(lit "k", CStr (lit "w"))]]]
  = [[CStr (lit "k")]; [CStr (lit "v")]; [CStr (lit "w")]].
Proof. reflexivity. Qed.
