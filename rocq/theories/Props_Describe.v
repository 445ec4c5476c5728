(** C67: what csvwdescribe prints is metadata of the package described. *)
From Coq Require Import Lia.
From Verif Require Import PyStr Json Dsv Frictionless FrictionlessSpec FrictionlessProofs FrictionlessProofs2 Datatype Dialects Meta MetaSpec MetaProofs Descr DescrSpec DescrProofs6
  ForgetSpec Describe DescribeSpec DescribeProofs DescribeProofs2.
From Verif Require JsonText JsonTextSpec JsonTextProofs2 Props_JsonText.

Section Describe.
Context {B : Type} (W : world B) (str_of : json -> pystr) (fr : pystr -> pystr).
(** Python knows the default encoding; schemas fetched are JSON *)
Hypothesis utf8 : w_codec W (lit "utf-8") = CKnown.
Hypothesis fetched : forall s j, w_fetch_schema W s = Some j -> wf_json j.

Lemma one_file_iff csv : one_file csv = true <-> single csv.
Proof.
  unfold single. destruct csv as [|f [|g csv]]; cbn [one_file].
  - split; [discriminate|intros (f & H & _); discriminate H].
  - rewrite negb_true_iff. split.
    + intros H. exists f. split; [reflexivity|]. intros X. apply char_mem_In in X. congruence.
    + intros (g & E & N). injection E as <-. destruct (char_mem 42 f) eqn:X; [apply char_mem_In in X; contradiction|reflexivity].
  - split; [discriminate|intros (h & H & _); discriminate H].
Qed.
Lemma package_iff csv dp pkg : package_json fr (SJson (package_of csv dp)) = Ok (JObj pkg) <-> package_from fr csv dp pkg.
Proof.
  unfold package_of. destruct (one_file csv) eqn:O.
  - apply one_file_iff in O. cbn [package_json]. split; [intros H; apply Ok_inj in H; injection H as <-; constructor; exact O|]. intros H. inversion H; subst; try contradiction. reflexivity.
  - assert (N : ~ single csv) by (intros X; apply one_file_iff in X; congruence). split.
    + destruct dp; cbn [package_json]; intros H; try discriminate H.
      * unfold loads_str in H. destruct (JsonText.loads fr s) as [j|] eqn:E; [|discriminate H]. apply Ok_inj in H. subst j. eapply pf_text; [exact N|reflexivity|]. apply JsonTextProofs2.loads_iff, E.
      * apply Ok_inj in H. injection H as ->. apply pf_package; [exact N|reflexivity].
    + intros H. inversion H; subst; try contradiction; cbn [package_json]; [reflexivity|]. unfold loads_str.
      match goal with X : JsonTextSpec.json_text fr s _ |- _ => apply (proj2 (JsonTextProofs2.loads_iff fr s _)) in X; rewrite X end. reflexivity.
Qed.

Lemma command_args delimiter csv : command_of delimiter csv (describe_args delimiter csv).
Proof.
  unfold command_of, describe_args.
  exists (match delimiter with Some (c :: d) => [lit "--dialect"; dialect_arg (c :: d)] | _ => [] end), (if one_file csv then [lit "--format"; lit "csv"] else [lit "--type"; lit "package"]).
  split; [reflexivity|]. split.
  - destruct delimiter as [[|c d]|]; [left; split; [right|]; reflexivity|right|left; split; [left|]; reflexivity].
    exists (c :: d). split; [reflexivity|]. split; [discriminate|reflexivity].
  - destruct (one_file csv) eqn:O; [left; split; [apply one_file_iff, O|reflexivity]|right]. split; [|reflexivity]. intros X. apply one_file_iff in X. congruence.
Qed.
(** What is printed is the JSON of a group of tables [o] that shows the package described; and reading that JSON again gives this group, without
    dialects that are the default one - if the group can be serialised (C35) and its strings can be written in JSON (C58) *)
Theorem c67_printed run delimiter csv text : csvwdescribe W str_of fr run delimiter csv = Ok text ->
  exists f args out dp pkg o d,
    run = Some f /\ command_of delimiter csv args /\ f args = Some out /\ JsonTextSpec.json_text fr out dp /\ package_from fr csv dp pkg /\
    group_shows W pkg o /\ text = JsonText.dumps JsonText.indented (JObj d) /\
    (JsonTextSpec.good fr (JObj d) -> JsonText.loads fr text = Some (JObj d)) /\
    forall o', group_forgets W o o' -> group_survives W o' -> fromvalue W (TableGroup_class W) (JObj d) = Ok o' /\ group_shows W pkg o'.
Proof.
  intros H. unfold csvwdescribe in H. destruct run as [f|]; [|discriminate H]. apply bind_inv in H. destruct H as (out & Ho & H).
  destruct (f (describe_args delimiter csv)) as [s|] eqn:Ef; [|discriminate Ho]. apply Ok_inj in Ho. subst s.
  apply bind_inv in H. destruct H as (dp & Hdp & H). apply bind_inv in H. destruct H as (o & Hto & H). apply bind_inv in H. destruct H as (d & Hd & H). apply Ok_inj in H. subst text.
  unfold loads_str in Hdp. destruct (JsonText.loads fr out) as [j|] eqn:El; [|discriminate Hdp]. apply Ok_inj in Hdp. subst j.
  unfold to_tablegroup in Hto. apply bind_inv in Hto. destruct Hto as (j & Hj & Hto). destruct j as [| | | | | |pkg]; try discriminate Hto.
  apply bind_inv in Hto. destruct Hto as (md & Hmd & Ho).
  pose proof (proj1 (package_iff csv dp pkg) Hj) as Pf.
  assert (Wp : wf_json (JObj pkg)).
  { pose proof (loads_wf fr out dp El) as Wdp. inversion Pf; subst.
    - wobj; [|exact I]. apply wf_list. intros x [<-|[]]. exact Wdp.
    - exact Wdp.
    - eapply loads_wf. apply JsonTextProofs2.loads_iff. eassumption. }
  pose proof (wf_metadata str_of _ _ _ Wp Hmd) as Wm.
  destruct (group_object W str_of _ pkg md o Wp Hmd Ho) as (rs & tabs & R & T & F & L).
  exists f, (describe_args delimiter csv), out, dp, pkg, o, d. split; [reflexivity|]. split; [apply command_args|]. split; [exact Ef|]. split; [apply JsonTextProofs2.loads_iff, El|]. split; [exact Pf|]. split.
  { exists rs, tabs. split; [exact R|]. split; [exact T|]. clear -F. induction F; constructor; tauto. }
  split; [reflexivity|]. split; [intros G; apply Props_JsonText.c58_roundtrip; [right; reflexivity|exact G]|].
  intros o' Fo S. split; [eapply (group_default_dialects W utf8 fetched true); eassumption|].
  destruct Fo as (o1 & ts & Fo & Ft & ->). exists rs, tabs. split; [exact R|]. split; [exact T|].
  assert (E : tables_in (set_tables ts o1) = ts).
  { assert (L1 : length (o_vals o1) = 18%nat).
    { destruct Fo as [->|(a & _ & _ & ->)]; [exact L|]. destruct o as [n c a1 v]. cbn [o_vals] in *. unfold set_dialect. cbn [o_vals].
      do 18 (destruct v as [|? v]; [discriminate L|]). destruct v; [reflexivity|discriminate L]. }
    unfold tables_in, set_tables. cbn [o_vals]. destruct o1 as [n c a1 v]. cbn [o_vals] in *. do 18 (destruct v as [|? v]; [discriminate L1|]). reflexivity. }
  rewrite E. eapply forget_tables; eassumption.
Qed.
End Describe.
Print Assumptions c67_printed.

(** A group with explicit default dialects, of its own or of its tables, loses exactly these (C35) *)
Theorem c35_group_default_dialects {B} (W : world B) : w_codec W (lit "utf-8") = CKnown -> (forall s j, w_fetch_schema W s = Some j -> wf_json j) ->
  forall omit d o o' d', wf_json d -> fromvalue W (TableGroup_class W) d = Ok o -> group_forgets W o o' -> group_survives W o' ->
  asdict (TableGroup_class W) omit o = Ok d' -> fromvalue W (TableGroup_class W) (JObj d') = Ok o'.
Proof. intros U F omit d o o' d'. apply (group_default_dialects W U F). Qed.
Print Assumptions c35_group_default_dialects.

(** A delimiter is passed on as it is if all its characters are plain, and, if it is one character, only then *)
Lemma plain_str d : Forall plain_char d -> JsonTextSpec.str_text d d.
Proof. induction 1 as [|c d (H1 & H2 & H3) F IH]; [constructor|]. constructor; assumption. Qed.
Theorem c67_delimiter fr d : Forall plain_char d -> JsonTextSpec.json_text fr (dialect_text d) (JObj [(lit "delimiter", JStr d)]).
Proof.
  intros F. exists [], (dialect_text d), []. split; [constructor|]. split; [constructor|]. split; [rewrite app_nil_r; reflexivity|].
  change (dialect_text d) with (lit "{" ++ (lit """delimiter"": """ ++ d ++ lit """}")).
  replace (lit """delimiter"": """ ++ d ++ lit """}") with (([] ++ [34] ++ lit "delimiter" ++ [34] ++ [] ++ lit ":" ++ [32] ++ ([34] ++ d ++ [34]) ++ []) ++ lit "}").
  2:{ change (lit """delimiter"": """) with ([34] ++ lit "delimiter" ++ [34] ++ lit ":" ++ [32] ++ [34]). change (lit """}") with ([34] ++ lit "}"). rewrite !app_nil_l, app_nil_r. rewrite <- !app_assoc. reflexivity. }
  apply (JsonTextSpec.t_obj fr _ [(lit "delimiter", JStr d)]).
  - apply (JsonTextSpec.p_one fr [] (lit "delimiter") (lit "delimiter") [] [32] ([34] ++ d ++ [34]) [] (JStr d)).
    + constructor.
    + apply plain_str. repeat constructor; try discriminate.
    + constructor.
    + constructor; [left; reflexivity|constructor].
    + constructor. apply plain_str, F.
    + constructor.
  - split; [reflexivity|]. intros k v [X|[]]. injection X as <- <-. exists [], []. split; [reflexivity|intros []].
Qed.
Print Assumptions c67_delimiter.
Theorem c67_delimiter_char fr c : c < 1114112 -> (JsonTextSpec.json_text fr (dialect_text [c]) (JObj [(lit "delimiter", JStr [c])]) <-> plain_char c).
Proof.
  intros _. split; [|intros P; apply c67_delimiter; repeat constructor; exact P || apply P]. intros H. apply JsonTextProofs2.loads_iff in H.
  destruct (N.eqb_spec c 34) as [->|N1]; [vm_compute in H; discriminate H|]. destruct (N.eqb_spec c 92) as [->|N2]; [vm_compute in H; discriminate H|].
  destruct (N.ltb_spec c 32) as [L|L]; [|split; [exact L|split; assumption]]. exfalso.
  assert (X : forallb (fun n => match JsonText.loads fr (dialect_text [N.of_nat n]) with None => true | _ => false end) (seq 0 32) = true) by (vm_compute; reflexivity).
  rewrite forallb_forall in X. specialize (X (N.to_nat c)). rewrite N2Nat.id in X. rewrite H in X.
  discriminate X. apply in_seq. lia.
Qed.
Print Assumptions c67_delimiter_char.

(** *** Concrete cases *)
From Verif Require Import Props_Frictionless Props_Descr.
Definition same (s : pystr) : pystr := s.
(** the package of C50, without its empty list of licenses *)
Definition pkg67 : jdict := Eval vm_compute in filter (fun kv => negb (str_eqb (fst kv) (lit "licenses"))) pkg1.
Definition out67 : pystr := Eval vm_compute in JsonText.dumps JsonText.one_line (JObj pkg67).
(** the command frictionless writes the package whenever it is asked for one, with this delimiter *)
Definition run67 (args : list pystr) : option pystr :=
  match args with
  | [a; b; c; d; e; f; g] => if str_eqb a (lit "describe") && str_eqb d (lit "{""delimiter"": "";""}") && str_eqb f (lit "package") && str_eqb g (lit "*.csv") then Some out67 else None
  | _ => None
  end.
Definition text67 : pystr := Eval vm_compute in Props_Descr.get (csvwdescribe w0 so same (Some run67) (Some (lit ";")) [lit "*.csv"]) [].
Definition o67 : mobj pystr := Eval vm_compute in Props_Descr.get (to_tablegroup w0 so same (SJson (JObj pkg67))) nobj.
Definition md67 : jdict := Eval vm_compute in Props_Descr.get (to_metadata so (JsonText.dumps JsonText.one_line) pkg67) [].
Definition forget67 : mobj pystr := Eval vm_compute in
  set_tables (map (fun xy => snd xy (fst xy)) (combine (tables_in o67) [fun x => x; set_dialect (MJ JNull)])) o67.
Definition d67 : jdict := Eval vm_compute in Props_Descr.get (asdict (TableGroup_class w0) true o67) [].
(** strings of ASCII characters can be written in JSON *)
Definition ascii_str (s : pystr) : bool := forallb (fun c => c <? 128) s.
Fixpoint ascii (j : json) : bool :=
  match j with
  | JStr s => ascii_str s
  | JList l => forallb ascii l
  | JObj kvs => forallb (fun kv => match kv with (k, v) => ascii_str k && ascii v end) kvs
  | JFloat _ => false
  | _ => true
  end.
Lemma ascii_str_good s : ascii_str s = true -> JsonTextSpec.good_str s.
Proof.
  intros H. unfold ascii_str in H. rewrite forallb_forall in H. split.
  - apply Forall_forall. intros c Hc. specialize (H c Hc). apply N.ltb_lt in H. lia.
  - intros a u v b -> [Hh _]. unfold JsonTextSpec.high in Hh. specialize (H u). rewrite in_app_iff in H. specialize (H (or_intror (or_introl eq_refl))). apply N.ltb_lt in H. lia.
Qed.
Lemma ascii_good j : wf_json j -> ascii j = true -> JsonTextSpec.good same j.
Proof.
  induction j as [|b|z|r|s|l IH|kvs IH] using json_ind'; intros Wj A; try (constructor; fail); try discriminate A.
  - constructor. apply ascii_str_good, A.
  - constructor. cbn [ascii] in A. cbn [wf_json] in Wj. induction l as [|x l IHl]; constructor; cbn [forallb] in A; apply andb_true_iff in A; destruct A as [A1 A2]; inversion IH; subst; destruct Wj as [W1 W2]; auto.
  - cbn [ascii] in A. cbn [wf_json] in Wj. destruct Wj as [N Wj]. constructor; [exact N|]. clear N.
    induction kvs as [|[k x] kvs IHl]; constructor; cbn [forallb fst snd] in *; apply andb_true_iff in A; destruct A as [A1 A2]; inversion IH; subst; destruct Wj as [W1 W2]; auto.
    apply andb_true_iff in A1. destruct A1 as [A0 A1]. split; [apply ascii_str_good, A0|auto].
Qed.
Example c67_nonvacuous :
  csvwdescribe w0 so same (Some run67) (Some (lit ";")) [lit "*.csv"] = Ok text67 /\ text67 = JsonText.dumps JsonText.indented (JObj d67) /\
  group_shows w0 pkg67 o67 /\ length (tables_in o67) = 2%nat /\
  JsonTextSpec.good same (JObj d67) /\ group_forgets w0 o67 forget67 /\ forget67 <> o67 /\ group_survives w0 forget67 /\
  JsonText.loads same text67 = Some (JObj d67) /\ fromvalue w0 (TableGroup_class w0) (JObj d67) = Ok forget67.
Proof.
  split; [vm_compute; reflexivity|]. split; [vm_compute; reflexivity|]. split.
  { assert (Wp : wf_json (JObj pkg67)) by (let x := eval vm_compute in pkg67 in change (wf_json (JObj x)); wf).
    assert (Em : to_metadata so (JsonText.dumps JsonText.one_line) pkg67 = Ok md67) by (vm_compute; reflexivity).
    assert (Eo : fromvalue w0 (TableGroup_class w0) (JObj md67) = Ok o67) by (vm_compute; reflexivity).
    destruct (group_object w0 so (JsonText.dumps JsonText.one_line) pkg67 md67 o67 Wp Em Eo) as (rs & tabs & R & T & F & L).
    exists rs, tabs. split; [exact R|]. split; [exact T|]. clear -F. induction F; constructor; tauto. }
  split; [reflexivity|]. split.
  { apply ascii_good; [|vm_compute; reflexivity]. let x := eval vm_compute in d67 in change (wf_json (JObj x)); wf. }
  split.
  { exists o67, (tables_in forget67). split; [left; reflexivity|]. split; [|vm_compute; reflexivity].
    let x := eval vm_compute in (tables_in o67) in let y := eval vm_compute in (tables_in forget67) in change (Forall2 (forgets w0) x y).
    apply Forall2_cons; [left; reflexivity|]. apply Forall2_cons; [|apply Forall2_nil]. right. eexists. split; [vm_compute; reflexivity|]. split; vm_compute; reflexivity. }
  split; [intros X; discriminate X|]. split.
  { let x := eval vm_compute in forget67 in change (group_survives w0 x). obj. }
  split; vm_compute; reflexivity.
Qed.
(** without the command frictionless there is nothing to print *)
Example c67_no_command : csvwdescribe w0 so same None None [lit "a.csv"] = Err ValueError.
Proof. reflexivity. Qed.
(** a tab as delimiter: the argument is no JSON.  The two characters of its escape are read as a tab *)
Theorem c67_delimiter_refuted :
  ~ (exists j, JsonTextSpec.json_text same (dialect_arg [9]) j) /\ ~ (exists j, JsonTextSpec.json_text same (dialect_arg [34]) j) /\
  JsonTextSpec.json_text same (dialect_arg [92; 116]) (JObj [(lit "delimiter", JStr [9])]).
Proof.
  split; [intros (j & H); apply JsonTextProofs2.loads_iff in H; vm_compute in H; discriminate H|].
  split; [intros (j & H); apply JsonTextProofs2.loads_iff in H; vm_compute in H; discriminate H|].
  apply JsonTextProofs2.loads_iff. vm_compute. reflexivity.
Qed.
Print Assumptions c67_delimiter_refuted.
