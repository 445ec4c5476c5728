(** What becomes of the converted columns when they are read as CSVW: 'required' (C46). *)
From Verif Require Import PyStr Dsv DsvProofs4 Json Meta Descr DescrProofs JsonldProofs Frictionless FrictionlessSpec FrictionlessProofs FrictionlessProofs2.

Section Ignore.
Variables (tag_ok : pystr -> bool) (fields : list pystr) (tn : pystr).
Definition parts_of (r : res (parts * list mwarn)) : res parts := match r with Ok (p, _) => Ok p | Err e => Err e end.
Lemma step_parts p ws ws' kv : parts_of (partition_step tag_ok fields tn true (p, ws) kv) = parts_of (partition_step tag_ok fields tn true (p, ws') kv).
Proof.
  destruct kv as [k v]. unfold partition_step. destruct (startswith (lit "@") k).
  - destruct (if str_eqb k (lit "@id") then valid_id_property v else Ok (v, [])) as [vw|e]; cbn [bind]; [|reflexivity]. destruct (_ && _); reflexivity.
  - destruct (char_mem 58 k); [destruct (valid_common_property tag_ok v); reflexivity|]. destruct (_ && _); reflexivity.
Qed.
Lemma loop_parts kvs p ws ws' : parts_of (partition_loop tag_ok fields tn true (p, ws) kvs) = parts_of (partition_loop tag_ok fields tn true (p, ws') kvs).
Proof.
  revert p ws ws'. induction kvs as [|kv kvs IH]; intros p ws ws'; [reflexivity|]. cbn [partition_loop]. pose proof (step_parts p ws ws' kv) as S.
  destruct (partition_step _ _ _ _ (p, ws) kv) as [[p1 w1]|], (partition_step _ _ _ _ (p, ws') kv) as [[p2 w2]|]; cbn [parts_of] in S; try discriminate S; [|exact S].
  apply Ok_inj in S. subst p2. cbn [bind]. apply IH.
Qed.
(** a property that is not known does nothing but cause a warning *)
Lemma loop_ignore k kvs p ws ws' : startswith (lit "@") k = false -> char_mem 58 k = false -> str_mem k fields = false ->
  parts_of (partition_loop tag_ok fields tn true (p, ws) kvs) = parts_of (partition_loop tag_ok fields tn true (p, ws') (filter (fun kv => negb (str_eqb (fst kv) k)) kvs)).
Proof.
  intros A C M. revert p ws ws'. induction kvs as [|[k0 v] kvs IH]; intros p ws ws'; [reflexivity|]. cbn [filter fst]. destruct (str_eqb k0 k) eqn:E; cbn [negb].
  - apply str_eqb_eq in E. subst k0. rewrite <- (IH p ws ws'). cbn [partition_loop]. unfold partition_step. rewrite A, C, M. cbn [andb negb bind]. apply loop_parts.
  - cbn [partition_loop]. pose proof (step_parts p ws ws' (k0, v)) as S.
    destruct (partition_step _ _ _ _ (p, ws) (k0, v)) as [[p1 w1]|], (partition_step _ _ _ _ (p, ws') (k0, v)) as [[p2 w2]|]; cbn [parts_of] in S; try discriminate S; [|exact S].
    apply Ok_inj in S. subst p2. cbn [bind]. apply IH.
Qed.
(** a property that is known is handed on *)
Lemma loop_get k kvs p ws r : startswith (lit "@") k = false -> char_mem 58 k = false -> str_mem k fields = true -> partition_loop tag_ok fields tn true (p, ws) kvs = Ok r ->
  dget str_eqb (p_attrs (fst r)) k = match dget str_eqb (rev kvs) k with Some v => Some v | None => dget str_eqb (p_attrs p) k end.
Proof.
  intros A C M. revert p ws. induction kvs as [|[k0 v] kvs IH]; intros p ws H; [apply Ok_inj in H; subst r; reflexivity|]. cbn [partition_loop] in H.
  apply bind_inv in H. destruct H as ([p1 w1] & S & H). rewrite (IH p1 w1 H). cbn [rev]. rewrite (dget_app str_eqb). destruct (dget str_eqb (rev kvs) k) as [x|]; [reflexivity|]. cbn [dget].
  unfold partition_step in S. destruct (str_eqb k k0) eqn:E.
  - apply str_eqb_eq in E. subst k0. rewrite A, C, M in S. cbn [andb negb] in S. apply Ok_inj in S. injection S as <- _. cbn [p_attrs]. rewrite (dget_dset str_eqb str_eqb_eq), str_eqb_refl. reflexivity.
  - destruct (startswith (lit "@") k0).
    + apply bind_inv in S. destruct S as (vw & _ & S). destruct (_ && _); [discriminate S|]. apply Ok_inj in S. injection S as <- _. reflexivity.
    + destruct (char_mem 58 k0); [apply bind_inv in S; destruct S as (vw & _ & S); apply Ok_inj in S; injection S as <- _; reflexivity|].
      destruct (_ && _); apply Ok_inj in S; injection S as <- _; [reflexivity|]. cbn [p_attrs]. rewrite (dget_dset str_eqb str_eqb_eq), E. reflexivity.
Qed.
End Ignore.

Section Read.
Context {B : Type} (W : world B).
Lemma fromvalue_ignore (C : class B) k kvs : startswith (lit "@") k = false -> char_mem 58 k = false -> str_mem k (all_names C) = false ->
  fromvalue W C (JObj kvs) = fromvalue W C (JObj (filter (fun kv => negb (str_eqb (fst kv) k)) kvs)).
Proof.
  intros A Ck M. unfold fromvalue. assert (E : forall kvs, (if truthy (JObj kvs) then match JObj kvs with JObj kvs => Some kvs | _ => None end else Some []) = Some kvs) by (intros [|]; reflexivity).
  assert (P : forall kvs, (r <- partition_properties (w_tag_ok W) (all_names C) (cl_name C) true (JObj kvs) ;; match fst r with None => Err TypeError | Some p => new_object C p end)
    = (p <- parts_of (partition_loop (w_tag_ok W) (all_names C) (cl_name C) true ({| p_common := []; p_at := []; p_attrs := [] |}, []) kvs) ;;
       if str_mem (lit "common_props") (map fst (p_attrs p)) || str_mem (lit "at_props") (map fst (p_attrs p)) then Err TypeError else new_object C p)).
  { intros l. unfold partition_properties. rewrite E. destruct (partition_loop _ _ _ _ _ l) as [[p w]|]; [|reflexivity]. cbn [bind parts_of fst snd]. destruct (_ || _); reflexivity. }
  rewrite !P, (loop_ignore (w_tag_ok W) (all_names C) (cl_name C) k kvs _ [] [] A Ck M). reflexivity.
Qed.
Lemma fromvalue_get (C : class B) k kvs o : startswith (lit "@") k = false -> char_mem 58 k = false -> (forall o, cl_post C o = Ok o) -> fromvalue W C (JObj kvs) = Ok o ->
  Forall2 (fun f v => fd_name f = k -> fd_conv f (getdef (dget str_eqb (rev kvs) k) (fd_default f)) = Ok v) (cl_fields C) (o_vals o).
Proof.
  intros A Ck P H. unfold fromvalue in H. apply bind_inv in H. destruct H as (r & H1 & H). unfold partition_properties in H1.
  assert (E : (if truthy (JObj kvs) then match JObj kvs with JObj kvs => Some kvs | _ => None end else Some []) = Some kvs) by (destruct kvs; reflexivity). rewrite E in H1. apply bind_inv in H1. destruct H1 as (q & H1 & H2). destruct (_ || _); [discriminate H2|]. apply Ok_inj in H2. subst r. cbn [fst] in H.
  apply new_object_inv in H. destruct H as (vals & F & V & H). rewrite P in H. apply Ok_inj in H. subst o. cbn [o_vals]. clear F E P.
  assert (G : forall f, In f (cl_fields C) -> fd_name f = k -> dget str_eqb (p_attrs (fst q)) k = dget str_eqb (rev kvs) k).
  { intros f Hf <-. erewrite (loop_get (w_tag_ok W) (all_names C) (cl_name C) (fd_name f) kvs) by (try exact H1; try assumption; apply str_mem_In; unfold all_names; right; right; apply in_app_iff; right; apply in_map, Hf).
    cbn [p_attrs dget]. destruct (dget str_eqb (rev kvs) (fd_name f)); reflexivity. }
  eapply Forall2_weaken; [|exact V]. intros f v Hf E <-. rewrite <- (G f Hf eq_refl). exact E.
Qed.
End Read.
