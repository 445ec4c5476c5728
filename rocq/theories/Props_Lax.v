(** C61: what a lenient reading (strict=False), or a table without column descriptions, yields.  Vocabulary: LaxSpec.v. *)
From Verif Require Import PyStr PyCsv Dsv DsvSpec DsvExamples Json Dec NatLang Column ColumnSpec Schema Datatype Values Numeric Dates Table TableSpec QuietSpec LaxSpec LaxProofs LaxProofs2 Props_Table.
From Coq Require Import Lia.
From Coq Require String. Local Notation string := String.string.

(** Lenient reading yields every row of the file, with its cells by position. *)
Theorem c61_lenient : forall V (sc : scalars V) expand, (forall u d, exists s, expand u d = Ok s) -> forall lim dl lang (cols : list (tcol V)) file rows hdr data,
  (forall c, In c cols -> st_separator (tc_st c) <> Some []) -> cols <> [] ->
  reader_with_line_number lim (Some dl) kw0 file = Ok (rows, None) -> header_and_data dl cols rows hdr data -> hdr <> [] ->
  NoDup (map tc_header cols ++ map (fun i => number_name (S i)) (seq (length cols) (length hdr - length cols))) ->
  (* computed columns have no cells *)
  (forall j c, (j < length hdr)%nat -> nth_error cols j = Some c -> tc_virtual c = true -> de_valueUrl (c_desc (tc_col c)) = None) ->
  required_given cols hdr -> (forall line row, In (line, row) data -> row_complete cols hdr row /\ fails_well sc cols row) ->
  let out := iterdicts sc expand lim dl lang false false cols file in
  io_end out = None /\ Forall2 (fun lr ld => fst lr = fst ld /\ row_lenient sc expand cols (length hdr) (snd lr) (snd ld)) data (io_rows out).
Proof. exact @lenient_rows. Qed.
Print Assumptions c61_lenient.
(** Without column descriptions, strict or not: the texts under the headers of the file. *)
Theorem c61_no_columns : forall V (sc : scalars V) expand lim dl lang strict log file line hdr data,
  reader_with_line_number lim (Some dl) kw0 file = Ok ((line, hdr) :: data, None) -> d_header dl = true -> hdr <> [] -> NoDup hdr ->
  let out := iterdicts sc expand lim dl lang strict log (@nil (tcol V)) file in
  io_end out = None /\ io_msgs out = [] /\ Forall2 (fun lr ld => fst lr = fst ld /\ row_plain sc hdr (snd lr) (snd ld)) data (io_rows out).
Proof. exact @plain_rows. Qed.
Print Assumptions c61_no_columns.
(** Without column descriptions and header: numbered columns, as many as the first row that is not empty has. *)
Theorem c61_no_header : forall V (sc : scalars V) expand lim dl lang strict log file rows,
  reader_with_line_number lim (Some dl) kw0 file = Ok (rows, None) -> d_header dl = false ->
  let out := iterdicts sc expand lim dl lang strict log (@nil (tcol V)) file in
  exists n, width (map snd rows) n /\ io_end out = None /\ io_msgs out = [] /\ Forall2 (fun lr ld => fst lr = fst ld /\ row_numbered sc n (snd lr) (snd ld)) rows (io_rows out).
Proof. exact @numbered_rows. Qed.
Print Assumptions c61_no_header.

Definition no_head : dialect :=
  {| d_encoding := lit "utf-8"; d_lineTerminators := [[CR; LF]; [LF]]; d_quoteChar := Some [34]; d_doubleQuote := true; d_skipRows := 0; d_commentPrefix := None; d_header := false;
     d_headerRowCount := 1; d_delimiter := lit ","; d_skipColumns := 0; d_skipBlankRows := false; d_skipInitialSpace := false; d_trim := TrimFalse |}.
Definition lax_rows dl cols (file : list string) := io_rows (iterdicts sc0 expand0 131072 dl [] false false cols (crlf file)).
(** so the cells of longer rows that follow are lost *)
Theorem c61_wider_rows_refuted : exists file, lax_rows no_head [] file = [(1%nat, [(lit "_col.1", vs "x")]); (2%nat, [(lit "_col.1", vs "y")])] /\ file = ["x"; "y,z"]%string.
Proof. eexists. split; [|reflexivity]. vm_compute. reflexivity. Qed.
Print Assumptions c61_wider_rows_refuted.
(** and without column descriptions the empty cell is an empty string below a header, but None without header *)
Example c61_empty_cells : lax_rows pd [] ["a,b"; ",y"]%string = [(2%nat, [(lit "a", vs ""); (lit "b", vs "y")])]
  /\ lax_rows no_head [] [",y"]%string = [(1%nat, [(lit "_col.1", PNone); (lit "_col.2", vs "y")])].
Proof. split; vm_compute; reflexivity. Qed.
(** a, an integer n, a computed column v; the header is not looked at, and the second row is not valid *)
Definition lax_file : list string := ["x,y"; "1,2"; "3,z"; "4,"]%string.
Example c61_nonvacuous :
  lax_rows pd cols0 lax_file = [(2%nat, [(lit "a", vs "1"); (lit "n", vi 2); (lit "v", vs "http://x")]); (3%nat, [(lit "a", vs "3"); (lit "n", vs "z"); (lit "v", vs "http://x")]); (4%nat, [(lit "a", vs "4"); (lit "n", vs ""); (lit "v", vs "http://x")])]
  /\ exists rows hdr data, reader_with_line_number 131072 (Some pd) kw0 (crlf lax_file) = Ok (rows, None) /\ header_and_data pd cols0 rows hdr data /\ hdr <> []
  /\ NoDup (map tc_header cols0 ++ map (fun i => number_name (S i)) (seq (length cols0) (length hdr - length cols0)))
  /\ (forall j c, (j < length hdr)%nat -> nth_error cols0 j = Some c -> tc_virtual c = true -> de_valueUrl (c_desc (tc_col c)) = None)
  /\ required_given cols0 hdr /\ (forall line row, In (line, row) data -> row_complete cols0 hdr row /\ fails_well sc0 cols0 row).
Proof.
  split; [vm_compute; reflexivity|]. exists [(1%nat, [lit "x"; lit "y"]); (2%nat, [lit "1"; lit "2"]); (3%nat, [lit "3"; lit "z"]); (4%nat, [lit "4"; []])], [lit "x"; lit "y"], [(2%nat, [lit "1"; lit "2"]); (3%nat, [lit "3"; lit "z"]); (4%nat, [lit "4"; []])].
  split; [vm_compute; reflexivity|]. split; [exists 1%nat; reflexivity|]. split; [discriminate|]. split; [cbn; repeat constructor; cbn; intuition discriminate|].
  split; [|split].
  - intros [|[|[|j]]] c Hj Hc Hv; cbn in Hc; try (injection Hc as <-; discriminate Hv); cbn in Hj; lia.
  - intros c Hc R. exists 1%nat. eexists. split; [cbn; lia|]. split; [reflexivity|]. destruct Hc as [<-|[<-|[<-|[]]]]; try discriminate R. reflexivity.
  - intros line row Hin. split.
    2:{ intros j c text e Hc Ht He. apply ColumnProofs.col_read_spec in He; [|apply nth_error_In in Hc; destruct Hc as [<-|[<-|[<-|[]]]]; discriminate].
        destruct Hin as [E|[E|[E|[]]]]; injection E as _ <-; destruct j as [|[|[|j]]]; cbn in Hc, Ht; try discriminate; try (destruct j; discriminate); injection Hc as <-; injection Ht as <-; vm_compute in He; congruence. }
    intros j h c Hh Hc R. exists j, h, c. split; [|auto]. assert (j < 2)%nat by (change 2%nat with (length [lit "x"; lit "y"]); apply nth_error_Some; congruence). destruct Hin as [E|[E|[E|[]]]]; injection E as <- <-; exact H.
Qed.
(** more cells than columns; a list that cannot be read *)
Definition col_l : column value := {| c_desc := {| de_aboutUrl := None; de_datatype := Some (Some int_t); de_default := []; de_lang := lit "und"; de_null := [[]]; de_propertyUrl := None; de_required := None; de_separator := Some (lit ";"); de_valueUrl := None |};
  c_name := Some (lit "l"); c_titles := None; c_virtual := false; c_number := Some 1%nat |}.
Example c61_more : lax_rows pd (tcols [col_l]) ["p,q,r"; "1;2,,x"; "1;z"]%string =
  [(2%nat, [(lit "l", PList [Some (VInt 1); Some (VInt 2)]); (lit "_col.2", PNone); (lit "_col.3", vs "x")]); (3%nat, [(lit "l", PList [Some (VStr (lit "1")); Some (VStr (lit "z"))])])].
Proof. vm_compute. reflexivity. Qed.
