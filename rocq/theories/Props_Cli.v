(** C64: the verdict of csvwvalidate. *)
From Verif Require Import PyStr Dsv Json Dec Dialects NatLang Datatype Meta MetaSpec MetaProofs
  Column Schema Table TableSpec Zip Locate LocateSpec LocateProofs Files Descr Load LoadSpec Warn WarnSpec QuietSpec Group GroupSpec
  Props_Descr Props_Load Props_Warn Props_Table Cli CliSpec CliProofs5.

(** If the CSVW object can be built: OK is printed and the exit code is 0 iff no metadata was ignored, the metadata is in order (C63), the files
    of all tables are valid by the metadata (C60, with the columns and dialects of C62) and the keys are (C33, C47) *)
Theorem c64_verdict : forall B V veq (W : world B) (dtype_of : mobj B -> dtype V) sc expand lim w env fs stem url c,
  usual W -> (forall t j, wb_json w t = Some j -> wf_json j) -> equivalence veq -> (forall u d, exists s, expand u d = Ok s) ->
  csvw_new W dtype_of sc expand lim w env fs stem url = Ok c ->
  exists md md' xs gs, metadata_used w url md /\ metadata_as_used env stem url md md' /\ tables_checked W dtype_of env w url md md' xs /\
    Forall2 (read_as sc expand lim env fs) xs gs /\
    forall verbose, (csvwvalidate veq W dtype_of sc expand lim w env fs stem url verbose = Ok ([LineOK], 0%nat) <->
      nothing_ignored w url /\ metadata_in_order W md md' /\ all_valid sc lim env fs veq xs gs).
Proof.
  intros B V veq W dtype_of sc expand lim w env fs stem url c Us Wj Eq Tot H.
  destruct (new_checked veq W dtype_of sc expand lim w env fs stem Us Wj Eq Tot url c H) as (md & md' & xs & H1 & H2 & H3 & H4 & H5).
  exists md, md', xs, (snd c). repeat (split; [assumption|]). intros verbose. rewrite <- H5. unfold csvwvalidate. rewrite H. cbn [bind].
  destruct (csvw_is_valid veq c) as [[]|e]; [split; reflexivity|split; [discriminate|intros E; discriminate E]|].
  split; [|discriminate]. destruct e; discriminate.
Qed.
Print Assumptions c64_verdict.

(** Output and exit code: 0 means OK, 1 not valid, 2 a ValueError; verbose only adds a line.  Other exceptions are not handled *)
Theorem c64_codes : forall B V veq (W : world B) (dtype_of : mobj B -> dtype V) sc expand lim w env fs stem url verbose out,
  csvwvalidate veq W dtype_of sc expand lim w env fs stem url verbose = Ok out ->
  out = ([LineOK], 0%nat) \/ out = (LineFail :: (if verbose then [LineWarnings] else []), 1%nat) \/ out = (LineFail :: (if verbose then [LineError] else []), 2%nat).
Proof. intros until out. unfold csvwvalidate. destruct (bind _ _) as [[]|[]]; intros H; try discriminate H; apply Ok_inj in H; subst out; auto. Qed.
Print Assumptions c64_codes.
Theorem c64_exceptions : forall B V veq (W : world B) (dtype_of : mobj B -> dtype V) sc expand lim w env fs stem url verbose,
  let run := (c <- csvw_new W dtype_of sc expand lim w env fs stem url ;; csvw_is_valid veq c) in
  ((exists ls, csvwvalidate veq W dtype_of sc expand lim w env fs stem url verbose = Ok (ls, 2%nat)) <-> run = Err ValueError) /\
  (forall e, csvwvalidate veq W dtype_of sc expand lim w env fs stem url verbose = Err e <-> run = Err e /\ e <> ValueError).
Proof.
  intros until verbose. cbv zeta. unfold csvwvalidate. destruct (bind _ _) as [[]|e0].
  - split; [split; [intros (ls & H); discriminate H|discriminate]|]. intros e. split; [discriminate|intros [H _]; discriminate H].
  - split; [split; [intros (ls & H); discriminate H|discriminate]|]. intros e. split; [discriminate|intros [H _]; discriminate H].
  - split.
    + split; [intros (ls & H)|intros H; injection H as ->; eauto]. destruct e0; try discriminate H. reflexivity.
    + intros e. destruct e0; split; try (intros H; injection H as <-; split; [reflexivity|discriminate]); try (intros [H N0]; injection H as <-; first [reflexivity|destruct (N0 eq_refl)]); try discriminate.
Qed.
Print Assumptions c64_exceptions.

(** *** Examples: a group with two tables and a foreign key, as a local file or on the web *)
Definition cols (l : list (String.string * String.string)) : json := JList (map (fun kt => JObj (jo [(fst kt, js (snd kt))])) l).
Definition parents (key : String.string) : object := jo [("url", js "t.csv"); ("tableSchema", JObj (jo [("columns", JList [JObj (jo [(key, js "ID")]); JObj (jo [("name", js "T"); ("required", JBool true)])]); ("primaryKey", if String.eqb key "name" then js "ID" else JNull)]))]%string.
Definition children : object := jo [("url", js "c.csv"); ("tableSchema", JObj (jo [("columns", cols [("name", "ID"); ("name", "ref")]);
  ("foreignKeys", JList [JObj (jo [("columnReference", js "ref"); ("reference", JObj (jo [("resource", js "t.csv"); ("columnReference", js "ID")]))])])]))]%string.
Definition group (key : String.string) : object := jo [("@context", js "http://www.w3.org/ns/csvw"); ("tables", JList [JObj (parents key); JObj children])]%string.
Definition wv (md : object) : web := {|
  wb_head := fun _ => Err OtherError; wb_get := fun u => if str_eqb u (lit "http://e/md.json") then Ok (200%Z, lit "J") else Err OtherError;
  wb_json := fun t => if str_eqb t (lit "J") then Some (JObj md) else None; wb_join := fun b s => b ++ s; wb_expand := fun t _ => Ok t;
  wb_file := fun p => if str_eqb p (lit "d/md.json") then Some (lit "J") else None; wb_path := fun s => s; wb_name := fun s => s |}.
Definition here (t c : option pystr) : list (pystr * pystr) := (match t with Some x => [(lit "t.csv", x)] | None => [] end) ++ match c with Some x => [(lit "c.csv", x)] | None => [] end.
Definition fsv (t c : option pystr) : files := fun p => if startswith (lit "d/") p then match dget str_eqb (here t c) (skipn 2 p) with Some x => Some (Plain x) | None => None end else None.
Definition envv (t c : option pystr) : fenv := {| fe_isdir := fun p => str_eqb p (lit "d"); fe_join := fun b s => lit "http://e/" ++ s;
  fe_get := fun u => match dget str_eqb (here t c) (skipn 9 u) with Some x => Ok x | None => Err OtherError end; fe_dumps := fun _ => []; fe_loads := fun _ => None |}.
Definition run_md (md : object) (url : pystr) (t c : option pystr) : res (list line * nat) :=
  csvwvalidate str_eqb w1 (load_dtype w1) sc1 expand1 131072 (wv md) (envv t c) (fsv t c) (fun u => u) url false.
Definition run (key : String.string) : pystr -> option pystr -> option pystr -> res (list line * nat) := run_md (group key).
Definition t_ok : option pystr := Some (Props_Table.crlf ["ID,T"; "1,x"; "2,y"]%string).
Definition c_ok : option pystr := Some (Props_Table.crlf ["ID,ref"; "a,2"; "b,1"]%string).
Definition local_md : pystr := lit "d/md.json".
Definition web_md : pystr := lit "http://e/md.json".
Definition text (l : list String.string) : option pystr := Some (Props_Table.crlf l).
Definition valid : res (list line * nat) := Ok ([LineOK], 0%nat).
Definition invalid (code : nat) : res (list line * nat) := Ok ([LineFail], code).
(** the hypotheses of c64_verdict hold, with valid files *)
Example c64_nonvacuous :
  usual w1 /\ (forall t j, wb_json (wv (group "name")) t = Some j -> wf_json j) /\ equivalence str_eqb /\ (forall u (d : dict pystr), exists s, expand1 u d = Ok s) /\
  (exists c, csvw_new w1 (load_dtype w1) sc1 expand1 131072 (wv (group "name")) (envv t_ok c_ok) (fsv t_ok c_ok) (fun u => u) local_md = Ok c) /\
  run "name" local_md t_ok c_ok = valid /\ run "name" web_md t_ok c_ok = valid.
Proof.
  split; [exact w1_usual|]. split.
  { intros t j. cbn [wb_json wv]. destruct (str_eqb t (lit "J")); [|discriminate]. intros E. injection E as <-. let x := eval vm_compute in (group "name") in change (wf_json (JObj x)); wf. }
  split; [split; [apply str_eqb_refl|split; [intros a b H; apply str_eqb_eq in H; subst; apply str_eqb_refl|intros a b c H1 H2; apply str_eqb_eq in H1, H2; subst; apply str_eqb_refl]]|].
  split; [intros u d; exists u; reflexivity|]. split; [|split; vm_compute; reflexivity].
  assert (X : (match csvw_new w1 (load_dtype w1) sc1 expand1 131072 (wv (group "name")) (envv t_ok c_ok) (fsv t_ok c_ok) (fun u => u) local_md with Ok _ => true | Err _ => false end) = true) by (vm_compute; reflexivity).
  destruct (csvw_new _ _ _ _ _ _ _ _ _ _) as [c|]; [eauto|discriminate X].
Qed.
(** a duplicate key, a foreign key that is not found or null, no context; an unknown property, a required cell is missing, a column too many *)
Definition alone : object := jo [("@context", js "http://www.w3.org/ns/csvw")]%string ++ parents "name".
Example c64_nonvacuous_fails : Forall (fun r => r = invalid 2)
   [run "name" web_md (text ["ID,T"; "1,x"; "1,y"]%string) c_ok; run "name" local_md t_ok (text ["ID,ref"; "a,3"]%string); run "name" web_md t_ok (text ["ID,ref"; "a,"]%string);
    run_md (jo [("tables", JList [JObj children])]%string) local_md t_ok c_ok] /\
  Forall (fun r => r = invalid 1)
   [run_md (group "name" ++ jo [("x", JNull)]%string) web_md t_ok c_ok; run_md alone local_md (text ["ID,T"; "1,"]%string) None; run_md alone web_md (text ["ID,T,U"; "1,x,z"]%string) None] /\
  run_md alone local_md t_ok None = valid.
Proof. split; [|split]; [| |vm_compute; reflexivity]; repeat (apply Forall_cons; [vm_compute; reflexivity|]); apply Forall_nil. Qed.

(** *** What does not hold *)
(** A missing file is not reported as FAIL: the FileNotFoundError, or the error of the web server, is not handled *)
Theorem c64_missing_file_refuted : run "name" local_md None c_ok = Err OtherError /\ run "name" web_md t_ok None = Err OtherError.
Proof. split; vm_compute; reflexivity. Qed.
Print Assumptions c64_missing_file_refuted.
(** The verdict depends on where the same metadata and files are: references to columns by their title are errors on the web only *)
Theorem c64_place_refuted : run "titles" local_md t_ok c_ok = valid /\ run "titles" web_md t_ok c_ok = invalid 2.
Proof. split; vm_compute; reflexivity. Qed.
Print Assumptions c64_place_refuted.
(** The exit code does not tell whether data or metadata are wrong: the same defect in a table that a foreign key refers to is a ValueError *)
Theorem c64_code_refuted : run_md alone local_md (text ["ID,T"; "1,"]%string) None = invalid 1 /\ run "name" local_md (text ["ID,T"; "1,"]%string) c_ok = invalid 2.
Proof. split; vm_compute; reflexivity. Qed.
Print Assumptions c64_code_refuted.
(** Surplus cells in a row pass the validation *)
Theorem c64_surplus_cells_refuted : run_md alone local_md (text ["ID,T"; "1,x,z"; "2,y"]%string) None = valid /\ run_md alone web_md (text ["ID,T"; "1,x,z,,z"]%string) None = valid.
Proof. split; vm_compute; reflexivity. Qed.
Print Assumptions c64_surplus_cells_refuted.
(** '@base' in the context of a single table is resolved once more when foreign keys are checked: a table with a foreign key to itself is looked for elsewhere.
    Without the foreign key the same file is valid *)
Definition based (fks : list json) : object := jo [("@context", JList [js "http://www.w3.org/ns/csvw"; JObj (jo [("@base", js "sub/")])]); ("url", js "t.csv");
  ("tableSchema", JObj (jo [("columns", cols [("name", "ID"); ("name", "T")]); ("foreignKeys", JList fks)]))]%string.
Definition self_key : json := JObj (jo [("columnReference", js "T"); ("reference", JObj (jo [("resource", js "t.csv"); ("columnReference", js "ID")]))])%string.
Definition run_based (fks : list json) : res (list line * nat) :=
  csvwvalidate str_eqb w1 (load_dtype w1) sc1 expand1 131072 (wv (based fks))
    {| fe_isdir := fun _ => false; fe_join := app (A := N); fe_get := fun u => if str_eqb u (lit "http://e/sub/t.csv") then Ok (Props_Table.crlf ["ID,T"; "1,1"]%string) else Err OtherError; fe_dumps := fun _ => []; fe_loads := fun _ => None |}
    (fun _ => None) (fun _ => lit "http://e/") web_md false.
Theorem c64_base_twice_refuted : run_based [] = valid /\ run_based [self_key] = Err OtherError.
Proof. split; vm_compute; reflexivity. Qed.
Print Assumptions c64_base_twice_refuted.
