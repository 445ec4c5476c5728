(** C52: zipped and remote files.  Vocabulary: ZipSpec.v, TableSpec.v. *)
From Verif Require Import PyStr PyCsv Dsv DsvSpec DsvProofs2 Json NatLang Column Schema Datatype Values Table TableSpec TableProofs5 TableProofs6 FrictionlessProofs2 Zip ZipSpec ZipProofs Props_Table.

(** Content without carriage returns in its cells is read from an archive or a URL as from a text file: rows, line numbers, messages, warnings, end. *)
Theorem c52_same : forall V (sc : scalars V) expand lim d lang strict log (cols : list (tcol V)) content rows,
  no_break_chars d -> bom_fits d content -> reader_rows lim (Some d) kw0 content = Ok (rows, None) -> no_cr rows ->
  iter_url sc expand lim d lang strict log cols content = iterdicts sc expand lim d lang strict log cols content.
Proof. intros. eapply iter_same; eassumption. Qed.
Print Assumptions c52_same.

(** A text file takes precedence over an archive; of several members of an archive the first one is read whose name ends with the file name. *)
Theorem c52_precedence : forall V (sc : scalars V) expand lim d lang strict log (cols : list (tcol V)) fs p,
  (forall t, fs p = Some (Plain t) -> iter_file sc expand lim d lang strict log cols fs p = iterdicts sc expand lim d lang strict log cols t) /\
  (forall pre name t post, fs p = None -> fs (p ++ lit ".zip") = Some (Archive (pre ++ (name, t) :: post)) ->
     (exists a, name = a ++ basename p) -> (forall n u, In (n, u) pre -> forall a, n <> a ++ basename p) ->
     iter_file sc expand lim d lang strict log cols fs p = iter_url sc expand lim d lang strict log cols t).
Proof.
  intros V sc expand lim d lang strict log cols fs p. unfold iter_file, zip_path. split.
  - intros t ->. reflexivity.
  - intros pre name t post -> -> (a & ->) Np. assert (X : filter (fun m : pystr * pystr => endswith (basename p) (fst m)) (pre ++ (a ++ basename p, t) :: post) = (a ++ basename p, t) :: filter (fun m : pystr * pystr => endswith (basename p) (fst m)) post).
    { induction pre as [|[n u] pre IH]; cbn [app filter fst].
      - assert (E : endswith (basename p) (a ++ basename p) = true) by (unfold endswith; rewrite rev_app_distr; generalize (rev (basename p)); intros l; induction l as [|c l IH]; [destruct (rev a); reflexivity|cbn [app startswith]; rewrite N.eqb_refl; exact IH]). rewrite E. reflexivity.
      - assert (E : endswith (basename p) n = false).
        { destruct (endswith (basename p) n) eqn:E; [|reflexivity]. exfalso. unfold endswith in E. assert (S : forall x y, startswith x y = true -> exists z, y = x ++ z).
          { clear. induction x as [|c x IH]; intros y H; [exists y; reflexivity|]. destruct y as [|c' y]; [discriminate H|]. cbn [startswith] in H. apply Bool.andb_true_iff in H. destruct H as [H1 H2]. apply N.eqb_eq in H1. subst c'. destruct (IH y H2) as (z & ->). exists z. reflexivity. }
          destruct (S _ _ E) as (z & Ez). apply (f_equal (@rev N)) in Ez. rewrite rev_involutive, rev_app_distr, rev_involutive in Ez. exact (Np n u (or_introl eq_refl) (rev z) Ez). }
        rewrite E. apply IH. intros n' u' I. exact (Np n' u' (or_intror I)). }
    match goal with |- match ?l with _ => _ end = _ => assert (Y : l = _) by exact X; rewrite Y end. reflexivity.
Qed.
Print Assumptions c52_precedence.

(** Writing a table zipped: if the cells have no carriage returns, then reading gives what it gives for the text file - from the moment the text file is complete,
    at every point at which the zipping may be interrupted, and afterwards; whatever was in the file system before. *)
Theorem c52_write : forall V (sc : scalars V) expand pv lim d dl q term lang strict strict' log (cols : list (tcol V)) (fs : files) p items before t n,
  sane_dialect d dl q term -> d_doubleQuote d = true -> d_skipInitialSpace d = false -> quote_crlf pv = true \/ term = [CR; LF] -> d_encoding d <> lit "UTF-8-BOM" ->
  table_write sc pv lim d strict cols before items = (Some t, Ok n) ->
  (forall rows, Forall2 (row_of sc cols) items rows ->
     cells_within lim (texts (header_rows d cols ++ rows)) /\ bom_safe d (header_rows d cols ++ rows) /\ no_cr (texts (header_rows d cols ++ rows))) ->
  forall s, In s (zip_states p t fs) -> iter_file sc expand lim d lang strict' log cols s p = iterdicts sc expand lim d lang strict' log cols t.
Proof.
  intros V sc expand pv lim d dl q term lang strict strict' log cols fs p items before t n Hs Hdq Hsk Hnl Henc Hw Hok s I.
  apply write_ok in Hw. destruct Hw as (_ & _ & rows & t' & HF & Hw & E). injection E as <-. destruct (Hok rows HF) as (Hlen & Hbom & Hcr).
  destruct (dialect_rows_roundtrip pv lim d dl q term _ Hs Hdq Hnl Hlen Hbom) as (t' & Ht & Hread). rewrite Ht in Hw. apply Ok_inj in Hw. subst t'.
  assert (E : map (map (skip_back d dl q)) (texts (header_rows d cols ++ rows)) = texts (header_rows d cols ++ rows)).
  { transitivity (map (fun r : list pystr => r) (texts (header_rows d cols ++ rows))); [|apply map_id].
    apply map_ext; intros r. transitivity (map (fun c : pystr => c) r); [|apply map_id]. apply map_ext; intros c. unfold skip_back; rewrite Hsk; reflexivity. }
  rewrite E in Hread. eapply read_states; [eapply sane_no_break; exact Hs|eapply written_bom; eassumption|exact Hread|exact Hcr|exact I].
Qed.
Print Assumptions c52_write.

(** Round trip: what is written zipped is read back, as in C27. *)
Theorem c52_write_read : forall V (sc : scalars V) expand pv lim d dl q term lang strict log (cols : list (tcol V)) fs p items,
  sane_dialect d dl q term -> d_doubleQuote d = true -> d_skipInitialSpace d = false ->
  quote_crlf pv = true \/ term = [CR; LF] -> keeps_everything d -> d_encoding d <> lit "UTF-8-BOM" ->
  regular_first cols -> distinct_headers cols -> (forall c, In c cols -> tc_virtual c = true -> tc_required c = false) ->
  expands expand ->
  (forall kvs, In kvs items -> complete_item cols kvs) ->
  (forall kvs c v, In kvs items -> In c cols -> tc_virtual c = false -> dget str_eqb kvs (tc_header c) = Some v -> survives sc c v) ->
  (forall rows, Forall2 (row_of sc cols) (map IDict items) rows ->
     cells_within lim (texts (header_rows d cols ++ rows)) /\ bom_safe d (header_rows d cols ++ rows) /\ no_cr (texts (header_rows d cols ++ rows))) ->
  exists fs', zip_write sc pv lim d strict true cols fs p (map IDict items) = (fs', Ok (length items)) /\
    let o := iter_file sc expand lim d lang true log cols fs' p in
    io_end o = None /\ io_msgs o = [] /\
    Forall2 (fun y kvs => (forall c, In c cols -> tc_virtual c = false -> dget str_eqb (snd y) (tc_header c) = dget str_eqb kvs (tc_header c))
                          /\ ((forall c, In c cols -> tc_virtual c = false) -> same_mapping (snd y) kvs /\ map fst (snd y) = map tc_header cols))
      (io_rows o) items.
Proof.
  intros V sc expand pv lim d dl q term lang strict log cols fs p items Hs Hdq Hsk Hnl Hke Henc Hreg Hdist Hvr Hx Hcomp Hsurv Hok.
  destruct (write_read sc expand pv lim d dl q term lang strict log cols (match fs p with Some (Plain t) => Some t | _ => None end) items Hs Hdq Hsk Hnl Hke Hreg Hdist Hvr Hx Hcomp Hsurv) as (t & Hw & R).
  { intros rows HF. destruct (Hok rows HF) as (A & B & _). auto. }
  unfold zip_write. rewrite Hw. cbn [snd]. eexists. split; [reflexivity|]. cbn zeta. erewrite c52_write; [exact R|exact Hs|exact Hdq|exact Hsk|exact Hnl|exact Henc|exact Hw|exact Hok|]. unfold zip_states. cbn [last In]. auto.
Qed.
Print Assumptions c52_write_read.

(** An example: the table of C27, zipped *)
Definition no_files : files := fun _ => None.
Definition text0 : pystr := crlf ["a,n"; """x,y"",1"; ",-20"]%string.
Example c52_nonvacuous :
  d_encoding pd <> lit "UTF-8-BOM" /\ no_break_chars pd /\ bom_fits pd text0 /\
  reader_rows 131072 (Some pd) kw0 text0 = Ok ([[lit "a"; lit "n"]; [lit "x,y"; lit "1"]; [[]; lit "-20"]], None) /\
  no_cr [[lit "a"; lit "n"]; [lit "x,y"; lit "1"]; [[]; lit "-20"]] /\
  (let r := zip_write sc0 py_modern 131072 pd true true cols0 no_files (lit "d/t.csv") (map IDict items0) in
   snd r = Ok 2%nat /\ fst r (lit "d/t.csv") = None /\ fst r (lit "d/t.csv.zip") = Some (Archive [(lit "t.csv", text0)]) /\
   map snd (io_rows (iter_file sc0 expand0 131072 pd [] true false cols0 (fst r) (lit "d/t.csv")))
   = [[(lit "a", vs "x,y"); (lit "n", vi 1); (lit "v", vs "http://x")]; [(lit "a", PNone); (lit "n", vi (-20)); (lit "v", vs "http://x")]]).
Proof.
  split; [discriminate|]. split; [repeat split; intros [X|[]]; discriminate X|]. split; [split; [discriminate|intros _ t; discriminate]|]. split; [vm_compute; reflexivity|]. split.
  - intros row cell [<-|[<-|[<-|[]]]] [<-|[<-|[]]] I; vm_compute in I; repeat (destruct I as [I|I]; [discriminate I|]); exact I.
  - cbn zeta. repeat split; vm_compute; reflexivity.
Qed.

(** *** What does not hold *)
(** a carriage return in a cell is read as a line feed from an archive (or URL), unlike from a text file *)
Theorem c52_cr_refuted : exists content, iter_url sc0 expand0 131072 pd [] true false (tcols [col_a]) content <> iterdicts sc0 expand0 131072 pd [] true false (tcols [col_a]) content.
Proof. exists (crlf ["a"]%string ++ [34; 120; CR; 121; 34; CR; LF]). vm_compute. discriminate. Qed.
Print Assumptions c52_cr_refuted.
Example c52_cr_value : let content := crlf ["a"]%string ++ [34; 120; CR; 121; 34; CR; LF] in
  map snd (io_rows (iterdicts sc0 expand0 131072 pd [] true false (tcols [col_a]) content)) = [[(lit "a", POne (VStr [120; CR; 121]))]] /\
  map snd (io_rows (iter_url sc0 expand0 131072 pd [] true false (tcols [col_a]) content)) = [[(lit "a", POne (VStr [120; LF; 121]))]].
Proof. split; vm_compute; reflexivity. Qed.
(** a byte order mark is kept: the first column is not recognised *)
Example c52_bom_refuted : let content := BOM :: crlf ["a"; "x"]%string in
  map snd (io_rows (iterdicts sc0 expand0 131072 pd [] true false (tcols [col_a]) content)) = [[(lit "a", vs "x")]] /\
  map snd (io_rows (iter_url sc0 expand0 131072 pd [] true false (tcols [col_a]) content)) = [[(BOM :: lit "a", vs "x"); (lit "a", PNone)]].
Proof. split; vm_compute; reflexivity. Qed.
(** the encoding 'UTF-8-BOM', which is accepted for text files, is not known here *)
Example c52_encoding_refuted : let d := {| d_encoding := lit "UTF-8-BOM"; d_lineTerminators := d_lineTerminators pd; d_quoteChar := d_quoteChar pd; d_doubleQuote := d_doubleQuote pd; d_skipRows := d_skipRows pd;
    d_commentPrefix := d_commentPrefix pd; d_header := d_header pd; d_headerRowCount := d_headerRowCount pd; d_delimiter := d_delimiter pd; d_skipColumns := d_skipColumns pd; d_skipBlankRows := d_skipBlankRows pd;
    d_skipInitialSpace := d_skipInitialSpace pd; d_trim := d_trim pd |} in
  let r := zip_write sc0 py_modern 131072 d true true cols0 no_files (lit "t.csv") (map IDict items0) in
  snd r = Ok 2%nat /\ io_end (iter_file sc0 expand0 131072 d [] true false cols0 (fst r) (lit "t.csv")) = Some LookupError.
Proof. split; vm_compute; reflexivity. Qed.
