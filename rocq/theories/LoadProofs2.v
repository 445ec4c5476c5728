(** Columns and schemas from JSON. *)
From Verif Require Import PyStr Dsv Json Dec Dialects NatLang Datatype Meta MetaSpec MetaProofs MetaProofs2 MetaProofs3 DsvProofs4
  Column ColumnSpec ColumnProofs Schema SchemaProofs2 SchemaSpec Table TableSpec Files Descr DescrSpec DescrProofs DescrProofs3 DescrProofs4 Load LoadSpec LoadProofs.
Local Open Scope nat_scope.
Section Cols.
Context {B V : Type} (W : world B) (dtype_of : mobj B -> dtype V).

Lemma odd_iff n : bad_name n = true <-> odd n.
Proof. rewrite bad_name_iff. unfold odd_name, odd. reflexivity. Qed.

Lemma nl_title (d : object) nl : nl_init (w_tag_ok W) (getdef (member d (lit "titles")) JNull) = Ok nl ->
  forall t, nl_getfirst nl None = Ok t -> title_of d t.
Proof.
  destruct (member d (lit "titles")) as [j|] eqn:M; cbn [getdef]; [|discriminate].
  destruct j as [|b|z|m|s|l|kvs]; cbn [nl_init]; try discriminate; intros E t G.
  - apply Ok_inj in E. subst nl. cbn in G. apply Ok_inj in G. subst t. apply ti_one. exact M.
  - destruct (forallb is_str l) eqn:F.
    + apply Ok_inj in E. subst nl. cbn in G. destruct (strings l) as [|s ss] eqn:S; [discriminate G|]. apply Ok_inj in G. subst t.
      apply (ti_list d s ss). rewrite M. f_equal. f_equal. rewrite (strs_map l F), S. reflexivity.
    + apply Ok_inj in E. subst nl. cbn in G. apply Ok_inj in G. subst t. apply ti_none.
      * intros s; rewrite M; discriminate.
      * intros l'; rewrite M. intros E. injection E as ->. clear -F. induction l' as [|x l' IH]; [discriminate F|exact (IH F)].
  - assert (N : dget dkey_eqb nl None = None).
    { apply mapM_Ok_inv in E. clear -E. induction E as [|kv x kvs nl H E IH]; [reflexivity|]. destruct (w_tag_ok W (fst kv)); [|discriminate H].
      apply Ok_inj in H. subst x. cbn. exact IH. }
    unfold nl_getfirst in G. rewrite N in G. apply Ok_inj in G. subst t. apply ti_none; intros x; rewrite M; discriminate.
Qed.
Lemma column_from csvw d o n c ds des tc : wf_json (JObj d) -> fromvalue W (Column_class W) (JObj d) = Ok o ->
  load_column dtype_of csvw (MO (Some n) (o_common o) (o_at o) (o_vals o)) = Ok c ->
  Forall2 (desc_from W dtype_of) ds des -> tcol_of des c = Ok tc -> column_described W dtype_of csvw (d :: ds) d n tc.
Proof.
  intros Wf H L F T. destruct (fromvalue_members W _ d o Wf (column_names W) H) as (common & at_ & vals & Fv & E & _).
  cbn [cl_post Column_class] in E. apply Ok_inj in E. subst o. cbn [o_common o_at o_vals] in L.
  cbn [cl_fields Column_class] in Fv. unfold column_fields in Fv. apply F2_app_inv in Fv. destruct Fv as (dv & cv & -> & Fd & Fc).
  assert (Ld : length dv = 11) by (symmetry; exact (eq_trans eq_refl (Forall2_length _ _ _ Fd))).
  inversion Fc as [|? mname ? ? Hname Fc1]; subst. inversion Fc1 as [|? msupp ? ? Hsupp Fc2]; subst. inversion Fc2 as [|? mtit ? ? Htit Fc3]; subst.
  inversion Fc3 as [|? mvirt ? ? Hvirt Fc4]; subst. inversion Fc4; subst. clear Fc Fc1 Fc2 Fc3 Fc4.
  assert (Hn : Ok (MJ (converter TStr JNull true no_cond (getdef (member d (lit "name")) JNull))) = Ok mname) by exact Hname.
  assert (Hv : Ok (MJ (converter TBool (JBool false) false no_cond (getdef (member d (lit "virtual")) (JBool false)))) = Ok mvirt) by exact Hvirt.
  assert (Ht : match getdef (member d (lit "titles")) JNull with
               | JNull => Ok (MJ JNull)
               | _ => match nl_init (w_tag_ok W) (getdef (member d (lit "titles")) JNull) with
                      | Ok nl => Ok (MTitles nl) | Err ValueError => Ok (MJ JNull) | Err e => Err e end end = Ok mtit) by exact Htit.
  apply Ok_inj in Hn, Hv. unfold load_column in L.
  destruct (load_desc dtype_of _) as [de|] eqn:Ed; [|discriminate L]. cbn [bind] in L. apply Ok_inj in L.
  pose proof (load_desc_from W dtype_of d (Some n) common at_ dv _ de Fd Ed) as D.
  assert (A : forall k x, col_attr (MO (Some n) common at_ (dv ++ x)) (11 + k) = nth k x (MJ JNull)).
  { intros k x. unfold col_attr. cbn [o_vals]. rewrite app_nth2, Ld by lia. f_equal. lia. }
  assert (Nm : col_name (MO (Some n) common at_ (dv ++ [mname; msupp; mtit; mvirt])) = converter TStr JNull true no_cond (getdef (member d (lit "name")) JNull)).
  { unfold col_name. rewrite (A 0). cbn [nth]. rewrite <- Hn. reflexivity. }
  assert (Tm : col_titles (MO (Some n) common at_ (dv ++ [mname; msupp; mtit; mvirt])) = match mtit with MTitles nl => Some nl | _ => None end).
  { unfold col_titles. rewrite (A 2). reflexivity. }
  assert (Vm : col_virtual (MO (Some n) common at_ (dv ++ [mname; msupp; mtit; mvirt])) = truthy (converter TBool (JBool false) false no_cond (getdef (member d (lit "virtual")) (JBool false)))).
  { unfold col_virtual. rewrite (A 3). cbn [nth]. rewrite <- Hv. reflexivity. }
  rewrite Nm, Tm, Vm in L. clear A Nm Tm Vm Hn Hv Hname Hvirt Htit Hsupp. cbn [o_num] in L.
  set (nm := match converter TStr JNull true no_cond (getdef (member d (lit "name")) JNull) with JStr s => Some s | _ => None end) in L.
  assert (Name : name_of csvw d (csvw_name csvw nm)).
  { unfold nm. destruct (member d (lit "name")) as [j|] eqn:M; cbn [getdef].
    - destruct j; cbn [converter isinst andb no_cond conv_item]; try (apply nm_none; intros x; rewrite M; discriminate).
      destruct s as [|x s].
      + apply nm_some; [exact M|]. intros [_ O]. destruct O as [[s E]|(x & [] & _)]. discriminate E.
      + cbn [csvw_name]. destruct csvw; cbn [andb].
        * destruct (bad_name (x :: s)) eqn:Bn; [apply (nm_odd true d (x :: s) M eq_refl); apply odd_iff; exact Bn|].
          apply nm_some; [exact M|]. intros [_ O]. apply odd_iff in O. congruence.
        * apply nm_some; [exact M|]. intros [O _]; discriminate O.
    - apply nm_none. intros x. rewrite M; discriminate. }
  assert (Title : forall t, first_title c = Ok t -> title_of d t \/ (t = None /\ title_of d None)).
  { intros t G. subst c. unfold first_title in G. cbn [c_titles] in G. left. destruct (member d (lit "titles")) as [j|] eqn:M; cbn [getdef] in Ht.
    2:{ apply Ok_inj in Ht. subst mtit. apply Ok_inj in G. subst t. apply ti_none; intros x; rewrite M; discriminate. }
    destruct (nl_init (w_tag_ok W) j) as [nl|e] eqn:I.
    - assert (Hm : j <> JNull) by (intros ->; discriminate I). assert (mtit = MTitles nl) by (destruct j; try congruence; symmetry; apply Ok_inj; exact Ht). subst mtit.
      destruct nl as [|p nl]; [apply (nl_title d []); [rewrite M; exact I|exact G]|]. apply (nl_title d (p :: nl)); [rewrite M; exact I|exact G].
    - assert (mtit = MJ JNull).
      { destruct j; try (destruct e; try discriminate Ht; apply Ok_inj in Ht; congruence). }
      subst mtit. apply Ok_inj in G. subst t.
      destruct j; try discriminate I; try (apply ti_none; intros x; rewrite M; discriminate).
      cbn [nl_init] in I. destruct (forallb is_str l); discriminate I. }
  unfold tcol_of in T. destruct (header c) as [h|] eqn:Hh; [|discriminate T]. cbn [bind] in T. apply Ok_inj in T. subst tc.
  assert (Own : desc_from W dtype_of d (c_desc c)) by (subst c; exact D).
  split; cbn [tc_header tc_col tc_st settings_of st_required st_null st_default st_separator st_datatype].
  - unfold header in Hh. assert (Cn : c_name c = csvw_name csvw nm) by (subst c; reflexivity). rewrite Cn in Hh.
    assert (Tl : (csvw_name csvw nm = None \/ csvw_name csvw nm = Some []) -> (t <- first_title c ;; match t with Some (x :: s) => Ok (x :: s) | _ => Ok (col_n (c_number c)) end) = Ok h -> key_of csvw d n h).
    { intros O G. destruct (first_title c) as [t|] eqn:Ft; [|discriminate G]. cbn [bind] in G. destruct (Title t eq_refl) as [Ti|[-> Ti]].
      - destruct t as [[|x s]|]; apply Ok_inj in G; subst h.
        + replace (c_number c) with (Some n) by (subst c; reflexivity). eapply ky_number; [exact Name|exact O|exact Ti|right; reflexivity].
        + eapply ky_title; [exact Name|exact O|exact Ti|discriminate].
        + replace (c_number c) with (Some n) by (subst c; reflexivity). eapply ky_number; [exact Name|exact O|exact Ti|left; reflexivity].
      - apply Ok_inj in G; subst h. replace (c_number c) with (Some n) by (subst c; reflexivity). eapply ky_number; [exact Name|exact O|exact Ti|left; reflexivity]. }
    destruct (csvw_name csvw nm) as [[|x s]|].
    + apply Tl; [right; reflexivity|exact Hh].
    + apply Ok_inj in Hh. subst h. apply ky_name; [exact Name|discriminate].
    + apply Tl; [left; reflexivity|exact Hh].
  - intros Nl. unfold tc_virtual. cbn [tc_col]. subst c. cbn [c_virtual]. destruct (member d (lit "virtual")) as [j|] eqn:M; cbn [getdef].
    + destruct j as [|b| | | |l|]; cbn [converter isinst andb no_cond truthy]; try (split; intros X; discriminate X).
      * destruct b; split; intros X; congruence.
      * elim (Nl l); reflexivity.
    + cbn. split; intros X; discriminate X.
  - unfold tc_required. cbn [tc_col]. pose proof (df_required _ _ _ _ Own) as R. destruct (de_required (c_desc c)) as [b|]; cbn [from_member getdef] in *.
    + destruct R as (j & M & G & <-). split; [intros X; exists j; split; [exact M|exact X]|]. intros (j' & M' & X). rewrite M in M'. injection M' as <-. exact X.
    + split; [intros X; discriminate X|]. intros (j & M & X). elim (R j M). intros ->; discriminate X.
  - destruct (inherit_from de_required (lit "required") not_null _ _ (fun d de => df_required W dtype_of d de) ds des d (c_desc c) Own F) as (r & N & M).
    exists r. split; [exact N|]. destruct (inherit de_required (c_desc c) des) as [b|]; cbn [getdef].
    + destruct M as (j & -> & <-). split; [intros X; exists j; split; [reflexivity|exact X]|]. intros (j' & E & X). injection E as <-. exact X.
    + subst r. split; [intros X; discriminate X|]. intros (j & E & _); discriminate E.
  - apply (inherit_null_from _ (fun d de => df_null W dtype_of d de) ds des d (c_desc c) Own F).
  - pose proof (df_default _ _ _ _ Own) as R. unfold inherit_str. destruct (member d (lit "default")) as [[]|]; exact R.
  - destruct (inherit_from de_separator (lit "separator") a_string _ _ (fun d de => df_separator W dtype_of d de) ds des d (c_desc c) Own F) as (r & N & M).
    exists r. split; [exact N|]. destruct (inherit de_separator (c_desc c) des) as [[|x s]|]; cbn [nonempty_opt].
    + destruct M as (j & -> & ->). right; reflexivity.
    + destruct M as (j & -> & ->). split; [reflexivity|discriminate].
    + left; exact M.
  - destruct (inherit_from de_datatype (lit "datatype") not_null _ _ (fun d de => df_datatype W dtype_of d de) ds des d (c_desc c) Own F) as (r & N & M).
    exists r. split; [exact N|]. destruct (inherit de_datatype (c_desc c) des) as [[t|]|]; cbn [getdef].
    + destruct M as (j & -> & (o & Do & ->)). exists j, o. auto.
    + destruct M as (j & -> & X). intros j' E; injection E as <-. exact X.
    + intros j E. congruence.
  - exact (df_valueUrl _ _ _ _ Own).
  - exact (df_propertyUrl _ _ _ _ Own).
Qed.

Lemma conv_dict_list y y' : conv_dict (JList y) = Some (JList y') -> y' = [] ->
  forall z, In z y -> (forall d, z <> JObj d) /\ forall z', z <> JList z'.
Proof.
  cbn [conv_dict]. intros E ->. injection E as E. induction y as [|x y IH]; intros z Hin; [destruct Hin|].
  destruct x; cbn [conv_dict] in E; try discriminate E; (destruct Hin as [<-|Hin]; [split; intros ? K; discriminate K|apply IH; assumption]).
Qed.
Lemma columns_from l cols : Forall wf_json l -> mapM (fromvalue W (Column_class W)) (dict_items l) = Ok cols ->
  exists ds, column_objects l ds /\ Forall2 (fun d o => wf_json (JObj d) /\ fromvalue W (Column_class W) (JObj d) = Ok o) ds cols.
Proof.
  intros Wf E. apply mapM_Forall2 in E. revert cols Wf E. induction l as [|x l IH]; intros cols Wf E.
  - inversion E; subst. exists []. split; constructor.
  - apply Forall_cons_iff in Wf. destruct Wf as [Wx Wf]. unfold dict_items in E. cbn [flat_map] in E. destruct x as [|b|z|m|s|y|d].
    1-5: destruct (IH cols Wf E) as (ds & C & F); exists ds; (split; [apply co_other; [discriminate|discriminate|exact C]|exact F]).
    + destruct (conv_dict (JList y)) as [w|] eqn:Cy; [|cbn in Cy; discriminate Cy]. cbn [app] in E. inversion E as [|? o ? cols' Ho E']; subst.
      assert (exists y', w = JList y') as [y' ->] by (cbn [conv_dict] in Cy; injection Cy as <-; eexists; reflexivity).
      pose proof (fromvalue_list W _ _ _ Ho) as ->. destruct (IH cols' Wf E') as (ds & C & F). exists ([] :: ds). split.
      * apply co_empty; [|exact C]. exact (conv_dict_list y [] Cy eq_refl).
      * constructor; [|exact F]. split; [apply wf_obj; split; [constructor|intros k v []]|]. rewrite <- (fromvalue_falsy W _ (JList [])); [exact Ho|reflexivity].
    + cbn [conv_dict app] in E. inversion E as [|? o ? cols' Ho E']; subst. destruct (IH cols' Wf E') as (ds & C & F). exists (d :: ds).
      split; [apply co_object; exact C|]. constructor; [split; [exact Wx|exact Ho]|exact F].
Qed.
Lemma number_from_nth (cols : list (mobj B)) : forall i k, nth_error (number_from i cols) k =
  match nth_error cols k with Some o => Some (MO (Some (S (i + k))) (o_common o) (o_at o) (o_vals o)) | None => None end.
Proof.
  induction cols as [|[nn c a v] cols IH]; intros i [|k]; cbn [number_from nth_error]; try reflexivity.
  - rewrite Nat.add_0_r. reflexivity.
  - rewrite IH. destruct (nth_error cols k); [|reflexivity]. do 3 f_equal. lia.
Qed.
Lemma number_from_length (cols : list (mobj B)) : forall i, length (number_from i cols) = length cols.
Proof. induction cols as [|[nn c a v] cols IH]; intros i; [reflexivity|]. cbn [number_from length]. f_equal. apply IH. Qed.
Lemma nth_error_F2 {X Y} (R : X -> Y -> Prop) xs ys i x : Forall2 R xs ys -> nth_error xs i = Some x -> exists y, nth_error ys i = Some y /\ R x y.
Proof. intros F. revert i. induction F as [|a b xs ys H F IH]; intros [|i] E; try discriminate E; cbn in *; [injection E as <-; eauto|auto]. Qed.

(** virtual columns last, names of regular columns distinct *)
Definition given_names (cs : list (column V)) : list pystr :=
  flat_map (fun c => if c_virtual c then [] else match c_name c with None | Some [] => [] | Some n => [n] end) cs.
Definition ordered (cs : list (column V)) : Prop :=
  (exists n, (forall c, In c (firstn n cs) -> c_virtual c = false) /\ (forall c, In c (skipn n cs) -> c_virtual c = true)) /\ NoDup (given_names cs).
Lemma given_none cs : (forall c : column V, In c cs -> c_virtual c = true) -> given_names cs = [].
Proof. induction cs as [|c cs IH]; intros A; [reflexivity|]. cbn [given_names flat_map]. rewrite (A c (or_introl eq_refl)). apply IH. intros c' I. apply A. right; exact I. Qed.
Lemma cols_ordered (cols : list (mobj B)) cs : Forall2 (fun o c => c_virtual c = col_virtual o /\ forall x n, c_name c = Some (x :: n) -> col_name o = JStr (x :: n)) cols cs ->
  forall v ns, cols_ok v ns cols = Ok tt -> (v = true -> forall c, In c cs -> c_virtual c = true) /\ ordered cs /\ (forall n, In n (given_names cs) -> ~ In n ns).
Proof.
  unfold ordered. induction 1 as [|o c cols cs [Hv Hn] F IH]; intros v ns H.
  - split; [intros _ c []|]. split; [|intros n []]. split; [exists 0%nat; split; intros c []|constructor].
  - cbn [cols_ok] in H. destruct (match col_name o with JList (_ :: _) => true | _ => false end); [discriminate H|].
    destruct (negb (col_virtual o) && v) eqn:E1; [discriminate H|]. destruct (v || col_virtual o) eqn:E2.
    + assert (Cv : c_virtual c = true) by (rewrite Hv; destruct v, (col_virtual o); try discriminate E1; try discriminate E2; reflexivity).
      destruct (IH _ _ H) as (A & _ & _). assert (A' : forall c', In c' (c :: cs) -> c_virtual c' = true) by (intros c' [<-|I]; [exact Cv|exact (A eq_refl c' I)]).
      split; [intros _; exact A'|]. rewrite (given_none _ A'). split; [|intros n []]. split; [exists 0%nat; split; [intros c' []|exact A']|constructor].
    + apply orb_false_iff in E2. destruct E2 as [-> Ev]. rewrite Ev in Hv. destruct (col_header None o); [|discriminate H]. cbn [bind] in H.
      split; [discriminate|]. cbn [given_names flat_map]. rewrite Hv. fold (given_names cs).
      assert (R : forall ns', cols_ok false ns' cols = Ok tt -> ordered cs /\ (forall n, In n (given_names cs) -> ~ In n ns')) by (intros ns' H'; apply (IH _ _ H')).
      assert (Rg : forall k, ((forall c, In c (firstn k cs) -> c_virtual c = false) /\ (forall c, In c (skipn k cs) -> c_virtual c = true)) ->
        exists n, (forall c', In c' (firstn n (c :: cs)) -> c_virtual c' = false) /\ (forall c', In c' (skipn n (c :: cs)) -> c_virtual c' = true)).
      { intros k [K1 K2]. exists (S k). cbn [firstn skipn]. split; [intros c' [<-|I]; [exact Hv|exact (K1 c' I)]|exact K2]. }
      destruct (col_name o) as [| | | |[|x n]| |] eqn:En.
      1-5,7-8: destruct (R _ H) as ([[k K] Nd] & Nn); (destruct (c_name c) as [[|y m]|] eqn:Ec; [|specialize (Hn y m eq_refl); discriminate Hn|]);
        cbn [app]; (split; [split; [exact (Rg k K)|exact Nd]|exact Nn]).
      destruct (str_mem (x :: n) ns) eqn:Ms; [discriminate H|]. destruct (R _ H) as ([[k K] Nd] & Nn).
      destruct (c_name c) as [[|y m]|] eqn:Ec; cbn [app]; try (split; [split; [exact (Rg k K)|exact Nd]|intros n' I Q; apply (Nn n' I); right; exact Q]).
      specialize (Hn y m eq_refl). injection Hn as -> ->. split.
      * split; [exact (Rg k K)|]. constructor; [intros I; apply (Nn _ I); left; reflexivity|exact Nd].
      * intros n' [<-|I]; [intros Q; apply str_mem_In in Q; congruence|]. intros Q. apply (Nn n' I). right; exact Q.
Qed.
(** what a loaded schema has from its object *)
Lemma member_wf d k j : wf_json (JObj d) -> member d k = Some j -> wf_json j.
Proof. intros Wf M. apply wf_obj in Wf. apply dget_Some_In in M. eapply (proj2 Wf), M. Qed.
Lemma schema_from csvw s o sch : wf_json (JObj s) -> fromvalue W (Schema_class W) (JObj s) = Ok o -> load_schema dtype_of csvw o = Ok sch ->
  desc_from W dtype_of s (s_desc sch) /\ ordered (s_columns sch) /\
  exists ds, columns_of s ds /\ length (s_columns sch) = length ds /\
    forall i d c, nth_error ds i = Some d -> nth_error (s_columns sch) i = Some c ->
      exists o, wf_json (JObj d) /\ fromvalue W (Column_class W) (JObj d) = Ok o /\ load_column dtype_of csvw (MO (Some (S i)) (o_common o) (o_at o) (o_vals o)) = Ok c.
Proof.
  intros Wf H L. destruct (fromvalue_members W _ s o Wf (schema_names W) H) as (common & at_ & vals & Fv & E & _).
  cbn [cl_fields Schema_class] in Fv. unfold schema_fields in Fv. apply F2_app_inv in Fv. destruct Fv as (dv & cv & -> & Fd & Fc).
  assert (Ld : length dv = 11) by (symmetry; exact (Forall2_length _ _ _ Fd)).
  inversion Fc as [|? mcols ? ? Hcols Fc1]; subst. inversion Fc1 as [|? mfks ? ? Hfks Fc2]; subst. inversion Fc2 as [|? mpk ? ? Hpk Fc3]; subst.
  inversion Fc3 as [|? mrow ? ? Hrow Fc4]; subst. inversion Fc4; subst. clear Fc Fc1 Fc2 Fc3 Fc4.
  assert (Hc : (cols <- mapM (fromvalue W (Column_class W)) (dict_items (match getdef (member s (lit "columns")) (JList []) with JList l => l | _ => [] end)) ;; Ok (MObjs cols)) = Ok mcols) by exact Hcols.
  destruct (mapM _ _) as [cols|] eqn:Mc in Hc; [|discriminate Hc]. cbn [bind] in Hc. apply Ok_inj in Hc. subst mcols.
  cbn [cl_post Schema_class] in E. unfold schema_post in E. cbn [o_vals o_num o_common o_at] in E.
  assert (Sk : forall x, skipn 11 (dv ++ x) = x) by (intros x; rewrite <- Ld, skipn_app, skipn_all, Nat.sub_diag; reflexivity).
  assert (Fn : forall x, firstn 11 (dv ++ x) = dv) by (intros x; rewrite <- Ld, firstn_app, firstn_all, Nat.sub_diag; cbn; apply app_nil_r).
  rewrite Sk in E. destruct mpk as [pk| | | | | | | | |]; try discriminate E. destruct (cols_ok false [] cols) as [[]|] eqn:Ck; [|discriminate E]. cbn [bind] in E.
  destruct (pk_ok _ _ _) as [pk'|] eqn:P; [|discriminate E]. cbn [bind] in E. apply Ok_inj in E. subst o. rewrite Fn in *.
  unfold load_schema in L. cbn [o_vals] in L. rewrite Sk in L. destruct mfks as [| | | | | | |fks| |]; try discriminate L.
  destruct (load_desc dtype_of _) as [de|] eqn:Ed; [|discriminate L]. cbn [bind] in L.
  destruct (mapM (load_column dtype_of csvw) _) as [cs|] eqn:Cs; [|discriminate L]. cbn [bind] in L.
  destruct (load_pk pk') as [pk2|]; [|discriminate L]. cbn [bind] in L. destruct (mapM load_fkey fks) as [fks2|]; [|discriminate L]. cbn [bind] in L.
  apply Ok_inj in L. subst sch. cbn [s_desc s_columns]. split; [exact (load_desc_from W dtype_of s _ _ _ dv _ de Fd Ed)|]. split.
  { apply mapM_Forall2 in Cs. refine (proj1 (proj2 (cols_ordered cols cs _ false [] Ck))). clear -Cs. revert cs Cs. generalize 0%nat. induction cols as [|[nn c a v] cols IH]; intros i cs Cs.
    - inversion Cs; subst. constructor.
    - cbn [number_from] in Cs. inversion Cs as [|? x ? xs Hx Cx]; subst. constructor; [|exact (IH _ _ Cx)].
      unfold load_column in Hx. destruct (load_desc dtype_of _); [|discriminate Hx]. cbn [bind] in Hx. apply Ok_inj in Hx. subst x. cbn [c_virtual c_name]. split; [reflexivity|].
      intros y m. change (col_name (MO (Some (S i)) c a v)) with (col_name (MO nn c a v)). destruct (col_name (MO nn c a v)) as [| | | |s'| |]; try discriminate. 
      destruct s' as [|z s']; cbn [csvw_name]; [congruence|]. destruct (csvw && bad_name (z :: s')); congruence. }
  assert (exists ds, columns_of s ds /\ Forall2 (fun d o => wf_json (JObj d) /\ fromvalue W (Column_class W) (JObj d) = Ok o) ds cols) as (ds & Co & Fo).
  { unfold columns_of. destruct (member s (lit "columns")) as [j|] eqn:M; cbn [getdef] in Mc.
    - destruct j as [| | | | |l|]; try (cbn in Mc; apply Ok_inj in Mc; subst cols; exists []; split; [reflexivity|constructor]).
      apply columns_from; [|exact Mc]. apply Forall_forall. intros x Hx. apply (proj1 (wf_list l) (member_wf _ _ _ Wf M)). exact Hx.
    - cbn in Mc. apply Ok_inj in Mc. subst cols. exists []. split; [reflexivity|constructor]. }
  exists ds. split; [exact Co|]. apply mapM_Forall2 in Cs. split.
  - rewrite <- (Forall2_length _ _ _ Cs), number_from_length. symmetry. exact (Forall2_length _ _ _ Fo).
  - intros i d c Hd Hc. destruct (nth_error_F2 _ _ _ i d Fo Hd) as (o & Ho & Wd & Fd').
    assert (Hn : nth_error (number_from 0 cols) i = Some (MO (Some (S i)) (o_common o) (o_at o) (o_vals o))) by (rewrite number_from_nth, Ho; reflexivity).
    destruct (nth_error_F2 _ _ _ i _ Cs Hn) as (c' & Hc' & Lc). rewrite Hc in Hc'. injection Hc' as <-. exists o. auto.
Qed.
End Cols.
