(** C60: what validation says about a table.  content_valid: QuietSpec.v. *)
From Verif Require Import PyStr PyCsv Dsv DsvSpec DsvProofs DsvExamples Basic BasicProofs Json NatLang Column ColumnSpec Schema Datatype Values Numeric Dates Table TableSpec TableProofs2 Group GroupSpec GroupProofs4 QuietSpec QuietProofs QuietProofs2 Props_Table Props_Group.
From Coq Require String. Local Notation string := String.string.

(** Reading a table for validation ends without error and warning iff the file can be read, its header and its cells are valid, and nothing required is missing. *)
Theorem c60_table : forall V (sc : scalars V) expand lim dl lang name cols pk fks file,
  (forall u d, exists s, expand u d = Ok s) -> (forall c, In c cols -> st_separator (tc_st c) <> Some []) ->
  (reads_quietly (of_table sc expand lim dl lang name cols pk fks file) <->
   exists rows, reader_with_line_number lim (Some dl) kw0 file = Ok (rows, None) /\ content_valid sc lang dl cols rows).
Proof. intros V sc expand lim dl lang name cols pk fks file T S. exact (lax_iff sc expand T cols S lim dl lang file). Qed.
Print Assumptions c60_table.
(** So a table without keys is valid iff its metadata was loaded without warnings, and it is as above. *)
Theorem c60_valid : forall V (veq : V -> V -> bool) (sc : scalars V) expand lim dl lang name cols file loading, equivalence veq ->
  (forall u d, exists s, expand u d = Ok s) -> (forall c, In c cols -> st_separator (tc_st c) <> Some []) ->
  (is_valid veq loading [of_table sc expand lim dl lang name cols None [] file] = Ok true <->
   loading = [] /\ exists rows, reader_with_line_number lim (Some dl) kw0 file = Ok (rows, None) /\ content_valid sc lang dl cols rows).
Proof.
  intros V veq sc expand lim dl lang name cols file loading Q T S. rewrite (is_valid_iff veq Q). set (t := of_table sc expand lim dl lang name cols None [] file).
  pose proof (c60_table V sc expand lim dl lang name cols None [] file T S) as R. fold t in R. rewrite <- R.
  assert (NR : forall child fk target, ~ refers_to [t] child fk target) by (intros child fk target ([<-|[]] & [] & _)).
  split; [intros (A & B & _); split; [exact A|exact (proj1 (B t (or_introl eq_refl)))]|]. intros (A & B). split; [exact A|]. split; [intros t' [<-|[]]; split; [exact B|exact I]|]. split.
  - unfold integrity_holds. split; [split|split; [|split; [|split]]].
    + intros child fk [<-|[]] [].
    + intros child fk target H. destruct (NR child fk target H).
    + intros child fk target H. destruct (NR child fk target H).
    + intros child fk target H. destruct (NR child fk target H).
    + intros child fk target H. destruct (NR child fk target H).
    + intros _. split; [|split].
      * intros t' [<-|[]] H. exfalso. apply H. reflexivity.
      * intros t' fk line d [<-|[]] [].
      * intros child fk target H. destruct (NR child fk target H).
  - split; [|split].
    + intros t' k ks [<-|[]] H. discriminate H.
    + intros t' [<-|[]] H. exfalso. apply H. reflexivity.
    + intros child fk target H. destruct (NR child fk target H).
Qed.
Print Assumptions c60_valid.
(** The strict readings that the key checks of C47 make warn only about cells under a header that no column has, and about special numbers. *)
Theorem c60_unknown_headers : forall V (sc : scalars V) expand, (forall u d, exists s, expand u d = Ok s) -> forall lim dl lang (cols : list (tcol V)) file rows endr hdr data,
  reader_with_line_number lim (Some dl) kw0 file = Ok (rows, endr) -> header_and_data dl cols rows hdr data -> hdr <> [] -> regular_first cols -> titles_readable cols ->
  (forall c, In c cols -> st_separator (tc_st c) <> Some []) ->
  exists hc, matched cols hdr hc /\
  (required_present cols hc -> (forall lr, In lr data -> only_value_errors sc hc (snd lr)) ->
   (io_warns (iterdicts sc expand lim dl lang true true cols file) = [] <->
    (forall line row j h, In (line, row) data -> (j < length row)%nat -> nth_error hdr j = Some h -> exists c, In c cols /\ refers c h) /\
    (forall line row j h c text, In (line, row) data -> nth_error hc j = Some (h, Some c) -> nth_error row j = Some text -> ~ cell_warned sc (tc_st c) text))).
Proof. exact @strict_warnings_iff. Qed.
Print Assumptions c60_unknown_headers.

(** What datatypes warn of: for decimals and integers just these three texts (as a valid decimal they are read nevertheless), for booleans any text if the format is not of the form 'yes|no'. *)
Theorem c60_warned_texts : forall udigit babel name r F fmt s,
  (dt_noisy (dt_decimal udigit babel F) s = true <-> In s [lit "INF"; lit "-INF"; lit "NaN"]) /\
  (dt_noisy (dt_integer udigit babel name r F) s = true <-> In s [lit "INF"; lit "-INF"; lit "NaN"]) /\
  dt_noisy (dt_string F) s = false /\ dt_noisy (dt_hex F) s = false /\
  (dt_noisy (dt_boolean fmt F) s = true <-> truthy fmt = true /\ forall y n, fmt = JStr (y ++ lit "|" ++ n) -> In 124%N y \/ In 124%N n).
Proof.
  intros udigit babel name r F fmt s.
  assert (S3 : special_warning udigit nofmt s = true <-> In s [lit "INF"; lit "-INF"; lit "NaN"]).
  { unfold special_warning. rewrite andb_true_iff, str_mem_In. split; [tauto|]. intros H. split; [exact H|]. destruct H as [<-|[<-|[<-|[]]]]; reflexivity. }
  split; [exact S3|]. split; [exact S3|]. split; [reflexivity|]. split; [reflexivity|].
  cbn [dt_boolean mk_dtype dt_noisy]. unfold odd_bool_format. rewrite andb_true_iff. apply and_iff_compat_l.
  destruct fmt as [|b|z|m|f|l|d]; try (split; [intros _ y n K; discriminate K|reflexivity]). rewrite negb_true_iff, Nat.eqb_neq. split.
  - intros H y n E. injection E as ->. destruct (in_dec N.eq_dec 124 y); [tauto|]. destruct (in_dec N.eq_dec 124 n); [tauto|]. destruct H.
    rewrite !count_char_app. rewrite (proj2 (count_char_In 124 y)) by assumption. change (lit "|") with [124%N]. cbn [app]. pose proof (proj2 (count_char_In 124 n) ltac:(assumption)) as Q. unfold count_char in *. cbn. rewrite Q. reflexivity.
  - intros H E. destruct (count_one _ _ E) as (y & n & -> & Y & N'). destruct (H y n eq_refl) as [K|K]; [exact (Y K)|exact (N' K)].
Qed.
Print Assumptions c60_warned_texts.

(** a: no datatype; n: a required integer, with the title N *)
Definition verdict (file : list string) : res bool := is_valid (fun _ _ : value => false) [] [of_table sc0 expand0 131072 pd (lit "de") (lit "t.csv") cols0 None [] (crlf file)].
Example c60_nonvacuous :
  verdict ["a,N"; "x,1"; ",2"]%string = Ok true /\ verdict ["b,n"; "x,1"]%string = Ok true (* a column with a name may have any header *)
  /\ verdict ["a,n"; "x,z"]%string = Ok false /\ verdict ["a,n,v,w"; "x,1,,"]%string = Ok false
  /\ verdict ["a,n"; "x"]%string = Err ValueError /\ verdict ["a"; "x"]%string = Err ValueError
  /\ (forall c, In c cols0 -> st_separator (tc_st c) <> Some []).
Proof. repeat (split; [vm_compute; reflexivity|]). intros c [<-|[<-|[<-|[]]]]; discriminate. Qed.
(** titles in another language *)
Definition col_t (tag : string) : column value := {| c_desc := desc0; c_name := None; c_titles := Some [(Some (lit tag), [lit "A"])]; c_virtual := false; c_number := Some 1%nat |}.
Example c60_languages :
  let v tag hdr := is_valid (fun _ _ : value => false) [] [of_table sc0 expand0 131072 pd (lit "de-AT") (lit "t.csv") (tcols [col_t tag]) None [] (crlf [hdr; "x"]%string)] in
  v "de-CH"%string "A"%string = Ok true /\ v "und"%string "A"%string = Ok true /\ v "en"%string "A"%string = Ok false /\ v "de"%string "B"%string = Ok false.
Proof. repeat (split; [vm_compute; reflexivity|]). vm_compute. reflexivity. Qed.
(** A special number is read, but the table is not valid. *)
Definition col_d : column value := {| c_desc := dsc (Some (dt_decimal (fun _ => None) (fun _ _ => Err OtherError) no_facets)) None None;
  c_name := Some (lit "d"); c_titles := None; c_virtual := false; c_number := Some 1%nat |}.
Example c60_special_numbers :
  let t := of_table sc0 expand0 131072 pd [] (lit "t.csv") (tcols [col_d]) None [] in
  let rd f := let r := iterdicts sc0 expand0 131072 pd [] true false (tcols [col_d]) f in (map snd (io_rows r), io_end r) in
  is_valid (fun _ _ : value => false) [] [t (crlf ["d"; "1.5"]%string)] = Ok true /\ is_valid (fun _ _ : value => false) [] [t (crlf ["d"; "INF"]%string)] = Ok false
  /\ rd (crlf ["d"; "INF"]%string) = ([[(lit "d", POne (VDec (Dec.Inf false)))]], None).
Proof. repeat (split; [vm_compute; reflexivity|]). vm_compute. reflexivity. Qed.
