(** Dialects, tables and groups from JSON. *)
From Verif Require Import PyStr Dsv Json Dec Dialects NatLang Datatype Meta MetaSpec MetaProofs MetaProofs2 MetaProofs3 DsvProofs4
  Column ColumnSpec ColumnProofs Schema Table TableSpec Files Descr DescrSpec DescrProofs DescrProofs3 DescrProofs4 DescrProofs5 Load LoadSpec LoadProofs LoadProofs2.
Local Open Scope nat_scope.
Section Dial.
Context {B : Type} (W : world B).

Definition dialect_object (j : json) : object := match j with JObj d => d | _ => [] end.
Lemma dialect_kw j kw : wf_json j -> dialect_props W j = Ok kw -> forall n, In n (map a_name (meta_dialect_spec W)) ->
  dget str_eqb kw n = if str_eqb n (lit "header") && truthy (getdef (member (dialect_object j) (lit "headerRowCount")) JNull) then Some (JBool true) else member (dialect_object j) n.
Proof.
  intros Wf E n Hn. assert (Pl : forall n, In n (map a_name (meta_dialect_spec W)) -> plain_name n).
  { intros m Hm. apply plain_nameb_ok. assert (X : forallb plain_nameb (map a_name (meta_dialect_spec W)) = true) by reflexivity. rewrite forallb_forall in X. apply X, Hm. }
  unfold dialect_props in E. destruct j as [| | | | | |d]; try (apply Ok_inj in E; subst kw; cbn; rewrite andb_false_r; reflexivity).
  destruct (partition_properties (w_tag_ok W) _ _ false (JObj d)) as [[po ws]|] eqn:P; [|discriminate E]. cbn [bind fst] in E.
  destruct (partition_sound (w_tag_ok W) _ _ false d po ws Wf P) as (_ & -> & _). cbn [p_attrs] in E. cbn [dialect_object].
  assert (G : forall m, In m (map a_name (meta_dialect_spec W)) -> dget str_eqb (expected_attrs (Description_names W) false d) m = member d m).
  { intros m Hm. unfold expected_attrs, with_fate, member. rewrite (dget_filter (fun k => if fate_eq_dec (fate_of (Description_names W) false k) FAttr then true else false)); [reflexivity|].
    destruct (Pl m Hm) as (P1 & P2 & _). rewrite (fate_not_at _ _ _ P1), P2. reflexivity. }
  rewrite (G (lit "headerRowCount")) in E by (cbn; auto 20). destruct (truthy (getdef (member d (lit "headerRowCount")) JNull)).
  - apply Ok_inj in E. subst kw. rewrite andb_true_r. rewrite (dget_dset str_eqb str_eqb_eq). destruct (str_eqb_spec n (lit "header")) as [->|Hne]; [reflexivity|].
    rewrite G by exact Hn. reflexivity.
  - apply Ok_inj in E. subst kw. rewrite andb_false_r. apply G, Hn.
Qed.
Lemma set_bool d n b x : j_bool (converter TBool (JBool b) false no_cond (getdef (member d n) (JBool b))) = Some x -> x = setting a_bool b d n.
Proof. unfold setting. destruct (member d n) as [j|]; cbn [getdef]; [destruct j|]; cbn; congruence. Qed.
Lemma set_count d n c x : j_nat (converter TInt (JInt (Z.of_nat c)) false nonneg (getdef (member d n) (JInt (Z.of_nat c)))) = Some x -> x = setting a_count c d n.
Proof.
  assert (D : j_nat (JInt (Z.of_nat c)) = Some c).
  { cbn [j_nat]. destruct (Z.leb_spec 0 (Z.of_nat c)); [|lia]. rewrite Nat2Z.id. reflexivity. }
  unfold setting. destruct (member d n) as [j|]; cbn [getdef].
  - destruct j as [| |z| | | |]; cbn [converter isinst andb a_count]; try (rewrite D; congruence).
    + cbn [nonneg]. destruct (0 <=? z)%Z eqn:Z0; [cbn [j_nat]; rewrite Z0; congruence|rewrite D; congruence].
    + cbn. discriminate.
  - cbn [converter isinst andb nonneg]. destruct (Z.leb_spec 0 (Z.of_nat c)); rewrite D; congruence.
Qed.
Lemma set_text d n s x : j_str (converter TStr (JStr s) false no_cond (getdef (member d n) (JStr s))) = Some x -> x = setting a_text s d n.
Proof. unfold setting. destruct (member d n) as [j|]; cbn [getdef]; [destruct j|]; cbn; congruence. Qed.
Lemma set_optional d n (s : option pystr) x :
  let def := match s with Some s => JStr s | None => JNull end in
  j_optstr (converter TStr def true no_cond (getdef (member d n) def)) = Some x -> x = setting text_or_null s d n.
Proof. unfold setting. destruct s; destruct (member d n) as [j|]; cbn [getdef]; try destruct j; cbn; congruence. Qed.
Lemma set_encoding d v x : convert_encoding (w_codec W) (getdef (member d (lit "encoding")) (JStr (lit "utf-8"))) = Ok v -> j_str v = Some x ->
  x = setting (an_encoding (w_codec W)) (lit "utf-8") d (lit "encoding").
Proof.
  unfold setting, convert_encoding. intros E Hx.
  assert (D : match w_codec W (encoding_map (lit "utf-8")) with CKnown => Ok (JStr (lit "utf-8")) | CUnknown => Ok (JStr (lit "utf-8")) | CRaises e => Err e end = Ok v -> x = lit "utf-8").
  { intros Y. destruct (w_codec W _); try discriminate Y; apply Ok_inj in Y; subst v; injection Hx as <-; reflexivity. }
  destruct (member d (lit "encoding")) as [j|]; cbn [getdef] in E; [|apply D; exact E].
  destruct j as [| | | |s| |]; cbn [converter isinst andb no_cond an_encoding] in *; try (apply D; exact E).
  - unfold encoding_map in E. destruct (w_codec W _); try discriminate E; apply Ok_inj in E; subst v; injection Hx as <-; reflexivity.
  - cbn in E. discriminate E.
Qed.
Lemma set_trim d x : j_trim (converter TStrOrBool (JStr (lit "false")) false no_cond
     (match getdef (member d (lit "trim")) (JStr (lit "false")) with JBool true => JStr (lit "true") | JBool false => JStr (lit "false") | v => v end)) = Some x ->
  x = setting a_trim TrimFalse d (lit "trim").
Proof.
  unfold setting. destruct (member d (lit "trim")) as [j|]; cbn [getdef].
  - destruct j as [|b| | |s| |]; cbn [converter isinst andb no_cond a_trim]; try (cbn; congruence).
    + destruct b; cbn; congruence.
    + cbn [j_trim]. unfold trim_of_word. destruct (str_eqb s (lit "true")); [congruence|]. destruct (str_eqb s (lit "false")); [congruence|].
      destruct (str_eqb s (lit "start")); [congruence|]. destruct (str_eqb s (lit "end")); congruence.
  - cbn. congruence.
Qed.
Lemma set_lines d x : match converter TList crlf_lf false no_cond (getdef (member d (lit "lineTerminators")) crlf_lf) with JList l => j_strs l | JStr s => Some [s] | _ => None end = Some x ->
  match member d (lit "lineTerminators") with Some (JList l) => l = map JStr x | _ => x = [[CR; LF]; [LF]] end.
Proof.
  destruct (member d (lit "lineTerminators")) as [j|]; cbn [getdef]; [destruct j|]; cbn [converter isinst andb no_cond crlf_lf j_strs]; try (intros E; injection E as <-; reflexivity).
  apply DialectProofs.j_strs_map.
Qed.
Lemma dialect_from j a x : wf_json j -> new_dialect W j = Ok a -> to_dialect a = Some x -> dialect_says (w_codec W) (dialect_object j) x.
Proof.
  intros Wf H T. unfold new_dialect in H. destruct (dialect_props W j) as [kw|] eqn:Ek; [|discriminate H]. cbn [bind] in H.
  pose proof (dialect_kw j kw Wf Ek) as K. clear Ek. set (d := dialect_object j) in *.
  assert (G : forall s, In s (meta_dialect_spec W) -> a_conv s (getdef (dget str_eqb kw (a_name s)) (a_default s)) = Ok (attr_of a (a_name s))).
  { intros s Hs. destruct (init_get W kw a s H Hs) as (v & Gv & Iv & Vv). unfold attr_of. rewrite Gv. exact Iv. }
  assert (G' : forall s, In s (meta_dialect_spec W) -> str_eqb (a_name s) (lit "header") = false -> a_conv s (getdef (member d (a_name s)) (a_default s)) = Ok (attr_of a (a_name s))).
  { intros s Hs Hn. rewrite <- (G s Hs). rewrite K by (apply in_map; exact Hs). rewrite Hn. reflexivity. }
  unfold to_dialect in T.
  destruct (j_str (attr_of a (lit "encoding"))) as [e|] eqn:E1; [|discriminate T].
  destruct (match attr_of a (lit "lineTerminators") with JList l => j_strs l | JStr s => Some [s] | _ => None end) as [l|] eqn:E2; [|discriminate T].
  destruct (j_optstr (attr_of a (lit "quoteChar"))) as [q|] eqn:E3; [|discriminate T].
  destruct (j_bool (attr_of a (lit "doubleQuote"))) as [dq|] eqn:E4; [|discriminate T].
  destruct (j_nat (attr_of a (lit "skipRows"))) as [sr|] eqn:E5; [|discriminate T].
  destruct (j_optstr (attr_of a (lit "commentPrefix"))) as [cp|] eqn:E6; [|discriminate T].
  destruct (j_bool (attr_of a (lit "header"))) as [h|] eqn:E7; [|discriminate T].
  destruct (j_nat (attr_of a (lit "headerRowCount"))) as [hc|] eqn:E8; [|discriminate T].
  destruct (j_str (attr_of a (lit "delimiter"))) as [dl|] eqn:E9; [|discriminate T].
  destruct (j_nat (attr_of a (lit "skipColumns"))) as [sc|] eqn:E10; [|discriminate T].
  destruct (j_bool (attr_of a (lit "skipBlankRows"))) as [sb|] eqn:E11; [|discriminate T].
  destruct (j_bool (attr_of a (lit "skipInitialSpace"))) as [si|] eqn:E12; [|discriminate T].
  destruct (j_trim (attr_of a (lit "trim"))) as [t|] eqn:E13; [|discriminate T].
  injection T as <-.
  assert (A : forall n def c v, In (mk n def c v) (meta_dialect_spec W) -> str_eqb n (lit "header") = false -> attr_of a n = c (getdef (member d n) def)).
  { intros n def c v Hs Hn. specialize (G' _ Hs Hn). cbn [mk a_conv a_name a_default] in G'. apply Ok_inj in G'. symmetry; exact G'. }
  split; cbn [d_encoding d_lineTerminators d_quoteChar d_doubleQuote d_skipRows d_commentPrefix d_header d_headerRowCount d_delimiter d_skipColumns d_skipBlankRows d_skipInitialSpace d_trim].
  - eapply set_encoding; [|exact E1].
    exact (G' {| a_name := lit "encoding"; a_default := JStr (lit "utf-8"); a_conv := convert_encoding (w_codec W); a_valid := valid_type TStr |} ltac:(cbn; auto 20) eq_refl).
  - apply set_lines. rewrite (A (lit "lineTerminators") crlf_lf (converter TList crlf_lf false no_cond) (fun _ => Ok tt)) in E2 by (cbn; auto 20). exact E2.
  - apply (set_optional d (lit "quoteChar") (Some [34%N])). rewrite (A (lit "quoteChar") (JStr [34%N]) (converter TStr (JStr [34%N]) true no_cond) (fun _ => Ok tt)) in E3 by (cbn; auto 20). exact E3.
  - apply (set_bool d (lit "doubleQuote") true). rewrite (A (lit "doubleQuote") (JBool true) (converter TBool (JBool true) false no_cond) (valid_type TBool)) in E4 by (cbn; auto 20). exact E4.
  - apply (set_count d (lit "skipRows") 0). rewrite (A (lit "skipRows") (JInt 0) (converter TInt (JInt 0) false nonneg) valid_nonneg) in E5 by (cbn; auto 20). exact E5.
  - apply (set_optional d (lit "commentPrefix") None). rewrite (A (lit "commentPrefix") JNull (converter TStr JNull true no_cond) (fun v => match v with JNull => Ok tt | _ => valid_type TStr v end)) in E6 by (cbn; auto 20). exact E6.
  - intros Nh. apply (set_bool d (lit "header") true). pose proof (G (mk (lit "header") (JBool true) (converter TBool (JBool true) false no_cond) (valid_type TBool)) ltac:(cbn; auto 20)) as X.
    cbn [mk a_conv a_name a_default] in X. rewrite K in X by (cbn; auto 20). apply Ok_inj in X. rewrite <- X in E7.
    replace (truthy (getdef (member d (lit "headerRowCount")) JNull)) with false in E7; [rewrite andb_false_r in E7; exact E7|].
    destruct (member d (lit "headerRowCount")) as [jc|]; [|reflexivity]. cbn [getdef]. symmetry. apply Nh; reflexivity.
  - intros (jc & M & Tc). pose proof (G (mk (lit "header") (JBool true) (converter TBool (JBool true) false no_cond) (valid_type TBool)) ltac:(cbn; auto 20)) as X.
    cbn [mk a_conv a_name a_default] in X. rewrite K in X by (cbn; auto 20). apply Ok_inj in X. rewrite <- X, M in E7. cbn [getdef] in E7. rewrite Tc in E7. cbn in E7. congruence.
  - apply (set_count d (lit "headerRowCount") 1). rewrite (A (lit "headerRowCount") (JInt 1) (converter TInt (JInt 1) false nonneg) valid_nonneg) in E8 by (cbn; auto 20). exact E8.
  - apply (set_text d (lit "delimiter")). rewrite (A (lit "delimiter") (JStr (lit ",")) (converter TStr (JStr (lit ",")) false no_cond) (valid_type TStr)) in E9 by (cbn; auto 20). exact E9.
  - apply (set_count d (lit "skipColumns") 0). rewrite (A (lit "skipColumns") (JInt 0) (converter TInt (JInt 0) false nonneg) valid_nonneg) in E10 by (cbn; auto 20). exact E10.
  - apply (set_bool d (lit "skipBlankRows") false). rewrite (A (lit "skipBlankRows") (JBool false) (converter TBool (JBool false) false no_cond) (valid_type TBool)) in E11 by (cbn; auto 20). exact E11.
  - apply (set_bool d (lit "skipInitialSpace") false). rewrite (A (lit "skipInitialSpace") (JBool false) (converter TBool (JBool false) false no_cond) (valid_type TBool)) in E12 by (cbn; auto 20). exact E12.
  - apply set_trim. pose proof (G' (mk (lit "trim") (JStr (lit "false"))
       (fun v => converter TStrOrBool (JStr (lit "false")) false no_cond
                   (match v with JBool true => JStr (lit "true") | JBool false => JStr (lit "false") | _ => v end))
       (fun v => match v with JStr s => if str_mem s trim_words then Ok tt else Err ValueError | _ => Err ValueError end)) ltac:(cbn; auto 20) eq_refl) as X.
    cbn [mk a_conv a_name a_default] in X. apply Ok_inj in X. change (j_trim (attr_of a (lit "trim")) = Some t) in E13. rewrite <- X in E13. destruct (getdef (member d (lit "trim")) (JStr (lit "false"))) as [|[]| | | | |]; exact E13.
Qed.
End Dial.
