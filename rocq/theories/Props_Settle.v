(** Property theorems: what becomes of any description that is serialised and read again (C35, without [x_survives]). *)
From Verif Require Import PyStr Dsv Json Dialects NatLang Datatype Column Meta MetaSpec Descr DescrSpec DescrProofs DescrProofs2 DescrProofs3 DescrProofs4 DescrProofs5
  SettleSpec SettleProofs SettleProofs2 SettleProofs3 SettleProofs4 SettleProofs7 SettleProofs10.

(** [o] is read from metadata and serialised as [d'].  Then [d'] can be read again; what is read, [o'], is [o] except for what SettleSpec.v lists as not written, of which it
    has the defaults; and serialising [o'] gives [d'] once more.  [x_keeps] are conditions on external code (bounds of datatypes) and on "@id"s. *)
Theorem c35_datatype_settles {B} (env : world B) d o j :
  wf_json d -> datatype_fromvalue env d = Ok o -> datatype_keeps env o -> datatype_asdict env true o = Ok j ->
  exists o', datatype_fromvalue env j = Ok o' /\ datatype_settled env o o' /\ datatype_asdict env true o' = Ok j /\ datatype_survives env o'.
Proof.
  intros W H K E. destruct (datatype_settles env d o j W H K E) as (v & o' & Wv & _ & Hv & A & R & S). exists o'. split; [|auto].
  exact (proj1 (datatype_rt env v o' j Wv Hv S A)).
Qed.
Print Assumptions c35_datatype_settles.

Theorem c35_column_settles {B} (env : world B) d o d' :
  wf_json d -> fromvalue env (Column_class env) d = Ok o -> column_keeps env o -> asdict (Column_class env) true o = Ok d' ->
  exists o', fromvalue env (Column_class env) (JObj d') = Ok o' /\ column_settled env o o' /\ asdict (Column_class env) true o' = Ok d' /\ column_survives env o'.
Proof.
  intros W H K E. destruct (column_settles env d o d' W H K E) as (v & o' & Wv & Hv & A & S & R). exists o'. split; [|auto]. exact (column_rt env true (JObj v) o' d' Wv Hv S A).
Qed.
Print Assumptions c35_column_settles.

Theorem c35_schema_settles {B} (env : world B) d o d' :
  wf_json d -> fromvalue env (Schema_class env) d = Ok o -> schema_keeps env o -> asdict (Schema_class env) true o = Ok d' ->
  exists o', fromvalue env (Schema_class env) (JObj d') = Ok o' /\ schema_settled env o o' /\ asdict (Schema_class env) true o' = Ok d' /\ schema_survives env o'.
Proof.
  intros W H K E. destruct (schema_settles env d o d' W H K E) as (v & o' & Wv & Hv & A & S & R). exists o'. split; [|auto]. exact (schema_rt env true (JObj v) o' d' Wv Hv S A).
Qed.
Print Assumptions c35_schema_settles.

(** Schemas and dialects from the net are JSON documents. *)
Theorem c35_table_settles {B} (env : world B) d o d' :
  w_codec env (lit "utf-8") = CKnown ->
  (forall s j, w_fetch_schema env s = Some j -> wf_json j) -> (forall s at_ j, w_fetch_dialect env s at_ = Ok j -> wf_json j) ->
  wf_json d -> fromvalue env (Table_class env) d = Ok o -> table_keeps env o -> asdict (Table_class env) true o = Ok d' ->
  exists o', fromvalue env (Table_class env) (JObj d') = Ok o' /\ table_settled env o o' /\ asdict (Table_class env) true o' = Ok d' /\ table_survives env o'.
Proof.
  intros U F G W H K E. destruct (table_settles env U F G d o d' W H K E) as (v & o' & Wv & Hv & A & S & R). exists o'. split; [|auto]. exact (table_rt env U F true (JObj v) o' d' Wv Hv S A).
Qed.
Print Assumptions c35_table_settles.

Theorem c35_group_settles {B} (env : world B) d o d' :
  w_codec env (lit "utf-8") = CKnown ->
  (forall s j, w_fetch_schema env s = Some j -> wf_json j) -> (forall s at_ j, w_fetch_dialect env s at_ = Ok j -> wf_json j) ->
  wf_json d -> fromvalue env (TableGroup_class env) d = Ok o -> group_keeps env o -> asdict (TableGroup_class env) true o = Ok d' ->
  exists o', fromvalue env (TableGroup_class env) (JObj d') = Ok o' /\ group_settled env o o' /\ asdict (TableGroup_class env) true o' = Ok d' /\ group_survives env o'.
Proof.
  intros U F G W H K E. destruct (group_settles env U F G d o d' W H K E) as (v & o' & Wv & Hv & A & S & R). exists o'. split; [|auto]. exact (group_rt env U F true (JObj v) o' d' Wv Hv S A).
Qed.
Print Assumptions c35_group_settles.

(** Hence reading and writing metadata twice is doing so once. *)
Theorem c35_group_stable {B} (env : world B) d o d' o' :
  w_codec env (lit "utf-8") = CKnown ->
  (forall s j, w_fetch_schema env s = Some j -> wf_json j) -> (forall s at_ j, w_fetch_dialect env s at_ = Ok j -> wf_json j) ->
  wf_json d -> fromvalue env (TableGroup_class env) d = Ok o -> group_keeps env o -> asdict (TableGroup_class env) true o = Ok d' ->
  fromvalue env (TableGroup_class env) (JObj d') = Ok o' -> asdict (TableGroup_class env) true o' = Ok d'.
Proof.
  intros U F G W H K E H'. destruct (c35_group_settles env d o d' U F G W H K E) as (o2 & H2 & _ & A & _). rewrite H' in H2. apply Ok_inj in H2. subst o2. exact A.
Qed.
Print Assumptions c35_group_stable.

(** *** A concrete group that loses things at all levels *)
From Verif Require Import Props_Descr.
Definition scol : json :=
  JObj [(lit "name", JStr (lit "ID")); (lit "titles", JList []); (lit "separator", JList []); (lit "null", JList []); (lit "dc:title", JList []);
        (lit "datatype", JObj [(lit "base", JStr (lit "integer")); (lit "minimum", JStr (lit "1")); (lit "dc:title", JObj [])])].
Definition sgroup : json :=
  JObj [(lit "dc:title", JObj []); (lit "dc:source", JStr (lit "S")); (lit "notes", JObj []); (lit "@context", JList []); (lit "dialect", JObj []);
        (lit "tables", JList [JObj [(lit "url", JStr (lit "a.csv")); (lit "suppressOutput", JInt 0); (lit "dialect", JObj [(lit "header", JBool true)]);
                                    (lit "tableSchema", JObj [(lit "columns", JList [scol]); (lit "primaryKey", JList [])])];
                              JObj [(lit "url", JStr (lit "b.csv")); (lit "@id", JNull); (lit "tableSchema", JObj [])]])].
Definition sgroup_obj : mobj pystr := Eval vm_compute in get (fromvalue w0 (TableGroup_class w0) sgroup) nobj.
Definition sgroup_dict := Eval vm_compute in get (asdict (TableGroup_class w0) true sgroup_obj) [].
Definition sgroup_again : mobj pystr := Eval vm_compute in get (fromvalue w0 (TableGroup_class w0) (JObj sgroup_dict)) nobj.
Ltac keep := cbn [value_keeps fd_name];
  lazymatch goal with
  | |- True => exact I
  | |- Forall _ [] => apply Forall_nil
  | |- Forall _ _ => apply Forall_cons; [cbv beta; keep|keep]
  | |- _ /\ _ => split; keep
  | |- _ = _ -> _ => let H := fresh in intros H; first [discriminate H|clear H; keep]
  | |- datatype_keeps _ _ => split; [intros [X|X]; discriminate X|intros ? ? H; cbn in H; repeat (destruct H as [H|H]; [first [discriminate H|injection H as <-; intros Y; vm_compute in Y; apply Ok_inj in Y; subst; reflexivity]|]); destruct H]
  | |- id_keeps _ => let H := fresh in intros ? H; cbn in H; repeat (destruct H as [H|H]; [first [discriminate H | injection H as <-; left; reflexivity]|]); destruct H
  | |- Forall2 _ _ [] => apply Forall2_nil
  | |- Forall2 _ _ _ => repeat (apply Forall2_cons; [cbv beta; keep|]); apply Forall2_nil
  | |- table_keeps _ _ => split; keep
  | |- group_keeps _ _ => split; keep
  | |- schema_keeps _ _ => unfold schema_keeps; keep
  | |- column_keeps _ _ => unfold column_keeps; keep
  | |- _ => idtac
  end.
Lemma sgroup_keeps : group_keeps w0 sgroup_obj.
Proof. unfold sgroup_obj. keep. Qed.
Example c35_settles_nonvacuous :
  wf_json sgroup /\ fromvalue w0 (TableGroup_class w0) sgroup = Ok sgroup_obj /\ group_keeps w0 sgroup_obj /\
  asdict (TableGroup_class w0) true sgroup_obj = Ok sgroup_dict /\
  fromvalue w0 (TableGroup_class w0) (JObj sgroup_dict) = Ok sgroup_again /\ sgroup_again <> sgroup_obj /\
  asdict (TableGroup_class w0) true sgroup_again = Ok sgroup_dict /\
  sgroup_dict = [(lit "dc:source", JStr (lit "S"));
    (lit "tables", JList [JObj [(lit "tableSchema", JObj [(lit "columns", JList [JObj
        [(lit "datatype", JObj [(lit "base", JStr (lit "integer")); (lit "minimum", JStr (lit "1"))]); (lit "null", JList []); (lit "name", JStr (lit "ID"))]])]); (lit "url", JStr (lit "a.csv"))];
      JObj [(lit "@id", JNull); (lit "url", JStr (lit "b.csv"))]])].
Proof.
  split; [unfold sgroup, scol; wf|]. split; [vm_compute; reflexivity|]. split; [exact sgroup_keeps|]. split; [vm_compute; reflexivity|]. split; [vm_compute; reflexivity|].
  split; [intros X; discriminate X|]. split; vm_compute; reflexivity.
Qed.
