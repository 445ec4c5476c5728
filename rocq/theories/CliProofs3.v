(** The keys and tables that the JSON describes (C64). *)
From Verif Require Import PyStr Dsv Json Dec Dialects NatLang Datatype Meta MetaSpec MetaProofs MetaProofs2 MetaProofs3 DsvProofs4
  Column ColumnSpec ColumnProofs Schema Table TableSpec Zip Locate LocateSpec Files Descr DescrSpec DescrProofs DescrProofs3 DescrProofs4 DescrProofs5 Load LoadSpec LoadProofs LoadProofs2 LoadProofs3 LoadProofs4
  Warn WarnSpec WarnProofs4 QuietSpec Group GroupSpec Cli CliSpec.
Local Open Scope nat_scope.
Section Keys.
Context {B V : Type} (W : world B) (dtype_of : mobj B -> dtype V).
Hypothesis Us : usual W.

Lemma pk_ok_quiet (cols : list (mobj B)) refs acc pk : pk_ok cols refs acc = Ok pk -> pk_warns cols refs = [] -> pk = acc.
Proof.
  revert acc. induction refs as [|r refs IH]; intros acc; cbn [pk_ok pk_warns].
  - intros H _. apply Ok_inj in H. auto.
  - destruct (mapM _ cols) as [hs|]; [|discriminate]. cbn [bind]. intros H E. apply app_eq_nil in E. destruct E as [E1 E2].
    destruct r as [| | | |s| |]; try discriminate H; try exact (IH _ H E2).
    destruct (dget str_eqb _ s) as [c|]; [|exact (IH _ H E2)]. destruct (col_name c) as [| | | |[|x n]| |]; try discriminate E1. exact (IH _ H E2).
Qed.
Lemma all_str_map j l : all_str j = Ok l -> j = JList (map JStr l).
Proof.
  destruct j as [| | | | |js|]; try discriminate. cbn [all_str]. intros H. f_equal. apply mapM_Forall2 in H. induction H as [|x s js l X F IH]; [reflexivity|]. cbn [map]. rewrite <- IH. f_equal.
  destruct x; try discriminate X. apply Ok_inj in X. congruence.
Qed.
Lemma listed_of v l : all_str (conv_colref (getdef v JNull)) = Ok l -> columns_listed v l.
Proof.
  intros H. apply all_str_map in H. destruct v as [j|]; cbn [getdef] in H; [|discriminate H].
  destruct j; cbn [conv_colref] in H; try discriminate H; try (destruct l as [|? [|]]; discriminate H).
  - injection H as H. destruct l as [|x [|y l]]; try discriminate H. injection H as ->. constructor.
  - injection H as ->. constructor.
Qed.
Lemma dict_objects l : flat_map (fun x => match x with JObj d => [d] | _ => [] end) (dict_items l) = flat_map (fun x => match x with JObj d => [d] | _ => [] end) l.
Proof.
  induction l as [|x l IH]; [reflexivity|]. unfold dict_items in *. cbn [flat_map]. rewrite flat_map_app. rewrite IH. f_equal. destruct x; reflexivity.
Qed.
Lemma fkeys_from s fos fks : wf_json (JObj s) -> conv_fkeys (getdef (member s (lit "foreignKeys")) (JList [])) = Ok fos -> mapM load_fkey fos = Ok fks -> foreign_keys_say s fks.
Proof.
  intros Wf C L. unfold foreign_keys_say. apply mapM_Forall2 in L.
  assert (X : exists fs, match member s (lit "foreignKeys") with Some (JList l) => objects_in l fs | _ => fs = [] end /\ Forall2 (fun d k => fkey_of d = Ok k) fs fos).
  { destruct (member s (lit "foreignKeys")) as [j|] eqn:M; cbn [getdef] in C.
    - destruct j as [| | | | |l|]; cbn [conv_fkeys] in C; try discriminate C; try (apply Ok_inj in C; subst fos; exists []; split; [reflexivity|constructor]).
      rewrite dict_objects in C. eexists. split; [|apply mapM_Forall2; exact C]. refine (proj1 (objects_items l _)). apply Forall_forall. exact (proj1 (wf_list l) (member_wf _ _ _ Wf M)).
    - cbn in C. apply Ok_inj in C. subst fos. exists []. split; [reflexivity|constructor]. }
  destruct X as (fs & O & F). exists fs. split; [exact O|]. clear -F L. revert fks L. induction F as [|d k fs fos H F IH]; intros fks L; inversion L as [|? y ? ys Hy Ly]; subst; constructor; [|exact (IH _ Ly)].
  clear -H Hy. unfold fkey_of in H. destruct (dget str_eqb d (lit "reference")) as [r|] eqn:R; [|discriminate H].
  destruct (reference_of r) as [[[re sr] rc]|] eqn:Er; [|discriminate H]. cbn [bind fst snd] in H. destruct (negb _); [discriminate H|]. apply Ok_inj in H. subst k.
  unfold load_fkey in Hy. cbn [k_cols k_refcols k_resource k_schemaReference] in Hy. destruct (all_str (conv_colref (getdef (dget str_eqb d _) JNull))) as [cols|] eqn:Ec; [|discriminate Hy]. cbn [bind] in Hy.
  destruct (all_str rc) as [refs|] eqn:Erc; [|discriminate Hy]. cbn [bind] in Hy. apply Ok_inj in Hy. subst y.
  unfold reference_of in Er. destruct r as [| | | | | |r]; try discriminate Er. destruct (negb _); [discriminate Er|].
  destruct (link_of (dget str_eqb r (lit "resource"))) as [re'|] eqn:L1; [|discriminate Er]. cbn [bind] in Er. destruct (link_of (dget str_eqb r (lit "schemaReference"))) as [sr'|] eqn:L2; [|discriminate Er]. cbn [bind] in Er.
  assert (Q : Ok (re', sr', conv_colref (getdef (dget str_eqb r (lit "columnReference")) JNull)) = Ok (re, sr, rc)) by (destruct re', sr'; first [discriminate Er|exact Er]). injection Q as -> -> Q. subst rc.
  assert (Lk : forall k o, link_of (dget str_eqb r k) = Ok o -> link_says r k o).
  { intros k o X. unfold link_says, member. unfold link_of in X. destruct (dget str_eqb r k) as [[]|]; try discriminate X; apply Ok_inj in X; subst o; auto. }
  split; cbn [fk_cols fk_refcols fk_resource fk_schemaReference]; [exact (listed_of _ _ Ec)|]. exists r. split; [exact R|]. split; [exact (listed_of _ _ Erc)|]. split; [exact (Lk _ _ L1)|exact (Lk _ _ L2)].
Qed.
Lemma schema_keys_from csvw s o sch ds : wf_json (JObj s) -> fromvalue W (Schema_class W) (JObj s) = Ok o -> load_schema dtype_of csvw o = Ok sch -> columns_of s ds ->
  primary_key_says s ds (s_primaryKey sch) /\ foreign_keys_say s (s_foreignKeys sch).
Proof.
  intros Wf H L Cds. destruct (fromvalue_members W _ s o Wf (schema_names W) H) as (common & at_ & vals & Fv & E & _).
  cbn [cl_fields Schema_class] in Fv. unfold schema_fields in Fv. apply F2_app_inv in Fv. destruct Fv as (dv & cv & -> & Fd & Fc).
  assert (Ld : length dv = 11) by (symmetry; exact (Forall2_length _ _ _ Fd)).
  inversion Fc as [|? mcols ? ? Hcols Fc1]; subst. inversion Fc1 as [|? mfks ? ? Hfks Fc2]; subst. inversion Fc2 as [|? mpk ? ? Hpk Fc3]; subst.
  inversion Fc3 as [|? mrow ? ? Hrow Fc4]; subst. inversion Fc4; subst. clear Fc Fc1 Fc2 Fc3 Fc4.
  assert (Hc : (cols <- mapM (fromvalue W (Column_class W)) (dict_items (match getdef (member s (lit "columns")) (JList []) with JList l => l | _ => [] end)) ;; Ok (MObjs cols)) = Ok mcols) by exact Hcols.
  assert (Hp : Ok (MJ (conv_colref (getdef (member s (lit "primaryKey")) JNull))) = Ok mpk) by exact Hpk.
  assert (Hk : (l <- conv_fkeys (getdef (member s (lit "foreignKeys")) (JList [])) ;; Ok (MFks l)) = Ok mfks) by exact Hfks.
  destruct (mapM _ _) as [cols|] eqn:Mc in Hc; [|discriminate Hc]. cbn [bind] in Hc. apply Ok_inj in Hc. subst mcols. apply Ok_inj in Hp. subst mpk.
  destruct (conv_fkeys _) as [fos|] eqn:Ek in Hk; [|discriminate Hk]. cbn [bind] in Hk. apply Ok_inj in Hk. subst mfks. clear Hcols Hpk Hfks Hrow.
  cbn [cl_post Schema_class] in E. unfold schema_post in E. cbn [o_vals o_num o_common o_at] in E.
  assert (Sk : forall x, skipn 11 (dv ++ x) = x) by (intros x; rewrite <- Ld, skipn_app, skipn_all, Nat.sub_diag; reflexivity).
  assert (Fn : forall x, firstn 11 (dv ++ x) = dv) by (intros x; rewrite <- Ld, firstn_app, firstn_all, Nat.sub_diag; cbn; apply app_nil_r).
  rewrite Sk in E. destruct (cols_ok false [] cols) as [[]|] eqn:Ck; [|discriminate E]. cbn [bind] in E.
  destruct (pk_ok _ _ _) as [pk'|] eqn:P; [|discriminate E]. cbn [bind] in E. apply Ok_inj in E. subst o. rewrite Fn in *.
  unfold load_schema in L. cbn [o_vals] in L. rewrite Sk in L.
  destruct (load_desc dtype_of _) as [de|] eqn:Ed; [|discriminate L]. cbn [bind] in L.
  destruct (mapM (load_column dtype_of csvw) _) as [cs|] eqn:Cs; [|discriminate L]. cbn [bind] in L.
  destruct (load_pk pk') as [pk2|] eqn:Ep; [|discriminate L]. cbn [bind] in L. destruct (mapM load_fkey fos) as [fks2|] eqn:Ef; [|discriminate L]. cbn [bind] in L.
  apply Ok_inj in L. subst sch. cbn [s_primaryKey s_foreignKeys]. split; [|exact (fkeys_from s fos fks2 Wf Ek Ef)].
  intros Kn.
  assert (Fo : Forall2 (fun d o => wf_json (JObj d) /\ fromvalue W (Column_class W) (JObj d) = Ok o) ds cols).
  { unfold columns_of in Cds. destruct (member s (lit "columns")) as [j|] eqn:M; cbn [getdef] in Mc.
    - destruct j as [| | | | |l|]; try (cbn in Mc; apply Ok_inj in Mc; subst cols ds; constructor).
      destruct (columns_from W l cols) as (ds' & Co & F); [|exact Mc|rewrite (column_objects_fun _ _ _ Cds Co); exact F]. apply Forall_forall. intros x Hx. apply (proj1 (wf_list l) (member_wf _ _ _ Wf M)). exact Hx.
    - cbn in Mc. apply Ok_inj in Mc. subst cols ds. constructor. }
  assert (Ff : Forall2 (column_facts W) ds cols) by (eapply ColumnProofs2.Forall2_impl; [|exact Fo]; intros d0 o0 [X1 X2]; exact (column_facts_of W (us_und _ Us) d0 o0 X1 X2)).
  set (refs := match conv_colref (getdef (member s (lit "primaryKey")) JNull) with JList l => l | _ => [] end) in *.
  assert (Qp : pk_warns (number_from 0 cols) refs = []).
  { rewrite pk_each_nil. destruct refs as [|r0 rs] eqn:Er; [intros r []|]. destruct (pk_ok_headers _ _ _ _ _ P) as [hs Hs]. intros r I. destruct r as [| | | |k| |]; try reflexivity.
    apply (pk_one_nil W (us_und _ Us) ds cols hs k Ff Hs). intros i d Hd. apply (Kn k i d); [|exact Hd]. apply refs_in. change (In (JStr k) refs). rewrite Er. exact I. }
  pose proof (pk_ok_quiet _ _ _ _ P Qp) as ->. clear -Ep. unfold load_pk in Ep.
  destruct (member s (lit "primaryKey")) as [j|] eqn:M; cbn [getdef] in Ep; [|apply Ok_inj in Ep; subst pk2; left; reflexivity].
  destruct j as [|b|z|m|t|l|d]; cbn [conv_colref] in Ep.
  1: apply Ok_inj in Ep; subst pk2; right; reflexivity.
  all: match type of Ep with (x <- ?a ;; _) = _ => destruct a as [ks|] eqn:Ea; [|discriminate Ep] end; cbn [bind] in Ep; apply Ok_inj in Ep; subst pk2; apply listed_of; exact Ea.
Qed.
Lemma table_keys_from csvw t o sch : wf_json (JObj t) -> fromvalue W (Table_class W) (JObj t) = Ok o -> table_schema dtype_of csvw o = Ok sch ->
  keys_described W t (s_primaryKey sch) (s_foreignKeys sch).
Proof.
  intros Wf H L. destruct (fromvalue_members W _ t o Wf (table_names W) H) as (common & at_ & vals & Fv & E & At).
  cbn [cl_fields Table_class] in Fv. unfold tablelike_fields in Fv. rewrite <- app_assoc in Fv. apply F2_app_inv in Fv. destruct Fv as (dv & cv & -> & Fd & Fc).
  assert (Ld : length dv = 11) by (symmetry; exact (Forall2_length _ _ _ Fd)). cbn [app] in Fc.
  inversion Fc as [|? mdl ? ? Hdl Fc1]; subst. inversion Fc1 as [|? mno ? ? _ Fc2]; subst. inversion Fc2 as [|? mtd ? ? _ Fc3]; subst.
  inversion Fc3 as [|? msch ? ? Hsch Fc4]; subst. inversion Fc4 as [|? mtr ? ? _ Fc5]; subst. inversion Fc5 as [|? murl ? ? Hurl Fc6]; subst.
  inversion Fc6 as [|? msup ? ? _ Fc7]; subst. inversion Fc7; subst. clear Fc Fc1 Fc2 Fc3 Fc4 Fc5 Fc6 Fc7.
  cbn [cl_post Table_class] in E. rewrite tablelike_post_eq in E by exact Ld.
  destruct (match mdl with MJ (JStr s) => _ | _ => _ end) as [dl'|] eqn:Edl; [|discriminate E]. cbn [bind] in E.
  destruct (at_post W at_) as [at2|] eqn:Ap; [|discriminate E]. cbn [bind o_vals] in E.
  assert (A : forall k y, nth (11 + k) (dv ++ y) (MJ JNull) = nth k y (MJ JNull)).
  { intros k y. rewrite app_nth2, Ld by lia. f_equal. lia. }
  rewrite (A 5) in E. cbn [nth] in E. destruct murl as [| | |u| | | | | |]; try discriminate E. apply Ok_inj in E. subst o.
  unfold table_schema in L. cbn [o_vals] in L. rewrite (A 3) in L. cbn [nth] in L.
  assert (Hs : schema_fromvalue W (getdef (member t (lit "tableSchema")) JNull) = Ok msch) by exact Hsch.
  destruct (schema_value_from W dtype_of (us_schema _ Us) t msch csvw sch Wf Hs L) as (s & so & So & Ws & Hso & Lso).
  destruct (schema_from W dtype_of csvw s so sch Ws Hso Lso) as (_ & _ & ds & Co & _).
  exists s, ds. split; [exact So|]. split; [exact Co|]. exact (schema_keys_from csvw s so sch ds Ws Hso Lso Co).
Qed.
End Keys.
