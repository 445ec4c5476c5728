(** Warnings of schemas. *)
From Verif Require Import PyStr Dsv Json Dec Dialects NatLang Datatype Meta MetaSpec MetaProofs MetaProofs2 DsvProofs4
  Column ColumnProofs2 Schema SchemaProofs2 Descr DescrProofs DescrProofs2 DescrProofs3 Load LoadSpec LoadProofs LoadProofs2 LoadProofs5 Warn WarnSpec WarnProofs WarnProofs2 WarnProofs3.
Local Open Scope nat_scope.

(** ** What columns are called, is unique *)
Lemma name_of_fun d a b : name_of false d a -> name_of false d b -> a = b.
Proof.
  intros A C. inversion A as [n M _|n M E _|M]; subst; [|discriminate E|].
  - inversion C as [n' M' _|n' M' E _|M']; subst; [congruence|discriminate E|elim (M' n M)].
  - inversion C as [n' M' _|n' M' E _|M']; subst; [elim (M n' M')|discriminate E|reflexivity].
Qed.
Lemma title_of_fun d a b : title_of d a -> title_of d b -> a = b.
Proof.
  intros A C. inversion A as [s M|s l M|M1 M2]; subst; inversion C as [s' M'|s' l' M'|M1' M2']; subst; try congruence.
  all: first [elim (M1' _ M)|elim (M2' (s :: l) M)|elim (M1 _ M')|elim (M2 (s' :: l') M')].
Qed.
Lemma heading_fun d a b : heading d a -> heading d b -> a = b.
Proof.
  intros A C. inversion A as [s N1 E1|o s N1 E1 T1 F1|o t N1 E1 T1 F1]; subst; inversion C as [s' N2 E2|o' s' N2 E2 T2 F2|o' t' N2 E2 T2 F2]; subst;
    pose proof (name_of_fun _ _ _ N1 N2) as X; try (injection X as ->); subst; try reflexivity;
    try (destruct E2 as [E|E]; congruence); try (destruct E1 as [E|E]; congruence).
  - pose proof (title_of_fun _ _ _ T1 T2) as Y. congruence.
  - pose proof (title_of_fun _ _ _ T1 T2) as Y. subst. destruct F2 as [E|E]; congruence.
  - pose proof (title_of_fun _ _ _ T1 T2) as Y. subst. destruct F1 as [E|E]; congruence.
Qed.
Lemma key_of_fun d n a b : key_of false d n a -> key_of false d n b -> a = b.
Proof.
  intros A C. inversion A as [s N1 E1|o s N1 E1 T1 F1|o t N1 E1 T1 F1]; subst; inversion C as [s' N2 E2|o' s' N2 E2 T2 F2|o' t' N2 E2 T2 F2]; subst;
    pose proof (name_of_fun _ _ _ N1 N2) as X; try (injection X as ->); subst; try reflexivity;
    try (destruct E2 as [E|E]; congruence); try (destruct E1 as [E|E]; congruence).
  - pose proof (title_of_fun _ _ _ T1 T2) as Y. congruence.
  - pose proof (title_of_fun _ _ _ T1 T2) as Y. subst. destruct F2 as [E|E]; congruence.
  - pose proof (title_of_fun _ _ _ T1 T2) as Y. subst. destruct F1 as [E|E]; congruence.
Qed.
Lemma column_objects_fun l a b : column_objects l a -> column_objects l b -> a = b.
Proof.
  intros A. revert b. induction A as [|d l ds A IH|y l ds Y A IH|x l ds X1 X2 A IH]; intros b C; inversion C; subst; try congruence; try (f_equal; auto; fail).
  all: exfalso; match goal with H : forall _, _ <> _ |- _ => exact (H _ eq_refl) end.
Qed.
(** the last entry with a key *)
Lemma dget_last {X} (l : list (pystr * X)) k : match dget str_eqb (rev l) k with
  | Some c => exists i, nth_error l i = Some (k, c) /\ forall j c', i < j -> nth_error l j <> Some (k, c')
  | None => forall i c, nth_error l i <> Some (k, c)
  end.
Proof.
  induction l as [|[a x] l IH]; cbn [rev]; [intros [|i] c; discriminate|]. rewrite (dget_app str_eqb).
  destruct (dget str_eqb (rev l) k) as [c|].
  - destruct IH as (i & H & L). exists (S i). split; [exact H|]. intros [|j] c' Lt; [lia|]. cbn [nth_error]. apply L. lia.
  - cbn [dget]. destruct (str_eqb k a) eqn:E.
    + apply str_eqb_eq in E. subst a. exists 0. split; [reflexivity|]. intros [|j] c' Lt; [lia|]. apply IH.
    + intros [|i] c; cbn [nth_error]; [|apply IH]. intros X0. injection X0 as -> ->. rewrite str_eqb_refl in E. discriminate E.
Qed.

Section Schemas.
Context {B : Type} (W : world B).
Hypothesis Und : w_tag_ok W (lit "und") = true.

Lemma object_rule (C : class B) (known : pystr -> Prop) (rule : pystr -> json -> Prop) d :
  (forall k, In k (field_names C) <-> known k) ->
  (keys_known W C d /\ (forall k v, In (k, v) d -> rule k v) <-> object_in_order W known rule d).
Proof.
  intros Kn. unfold keys_known, item_quiet. split.
  - intros (K & R). split; [|intros v I; exact (proj1 (proj2 (K _ v I)) eq_refl)|intros k v I; exact (proj2 (proj2 (K _ v I)))|exact R].
    intros k v I. destruct (K k v I) as [[X|[X|X]] _]; [left; exact X|right; left; exact X|right; right; apply Kn; exact (X eq_refl)].
  - intros [O1 O2 O3 O4]. split; [|exact O4]. intros k v I. split; [|split; [intros ->; exact (O2 v I)|exact (O3 k v I)]].
    destruct (O1 k v I) as [X|[X|X]]; [left; exact X|right; left; exact X|right; right; intros _; apply Kn; exact X].
Qed.

(** ** One column *)
Lemma nested_bool_truthy v : nested is_bool v -> truthy (converter TBool (JBool false) false no_cond v) = truthy v.
Proof.
  intros H. inversion H as [j (b & ->)|l Hl]; subst; [reflexivity|]. destruct l as [|x l]; [reflexivity|].
  cbn [converter conv_item truthy]. assert (E : exists y, conv_item TBool no_cond x = Some y).
  { specialize (Hl x (or_introl eq_refl)). inversion Hl as [j (b & ->)|l' _]; subst; [exists (JBool b); reflexivity|eexists; reflexivity]. }
  destruct E as [y ->]. reflexivity.
Qed.
Record column_facts (d : object) (o : mobj B) : Prop := {
  cf_name : forall n, n <> [] -> (col_name o = JStr n <-> nonempty_name d n);
  cf_virtual : column_in_order W d -> (col_virtual o = true <-> is_virtual d);
  cf_heading : forall h, col_header None o = Ok h -> heading d h;
  cf_key : forall n h, col_header (Some n) o = Ok h -> key_of false d n h;
}.
Lemma column_facts_of d o : wf_json (JObj d) -> fromvalue W (Column_class W) (JObj d) = Ok o -> column_facts d o.
Proof.
  intros Wf H. destruct (fromvalue_members W _ d o Wf (column_names W) H) as (common & at_ & vals & Fv & E & _).
  cbn [cl_post Column_class] in E. apply Ok_inj in E. subst o.
  cbn [cl_fields Column_class] in Fv. unfold column_fields in Fv. apply F2_app_inv in Fv. destruct Fv as (dv & cv & -> & Fd & Fc).
  assert (Ld : length dv = 11) by (symmetry; exact (eq_trans eq_refl (Forall2_length _ _ _ Fd))).
  inversion Fc as [|? mname ? ? Hname Fc1]; subst. inversion Fc1 as [|? msupp ? ? Hsupp Fc2]; subst. inversion Fc2 as [|? mtit ? ? Htit Fc3]; subst.
  inversion Fc3 as [|? mvirt ? ? Hvirt Fc4]; subst. inversion Fc4; subst. clear Fc Fc1 Fc2 Fc3 Fc4.
  assert (Hn : Ok (MJ (converter TStr JNull true no_cond (getdef (member d (lit "name")) JNull))) = Ok mname) by exact Hname.
  assert (Hv : Ok (MJ (converter TBool (JBool false) false no_cond (getdef (member d (lit "virtual")) (JBool false)))) = Ok mvirt) by exact Hvirt.
  assert (Ht : match getdef (member d (lit "titles")) JNull with
               | JNull => Ok (MJ JNull)
               | _ => match nl_init (w_tag_ok W) (getdef (member d (lit "titles")) JNull) with
                      | Ok nl => Ok (MTitles nl) | Err ValueError => Ok (MJ JNull) | Err e => Err e end end = Ok mtit) by exact Htit.
  apply Ok_inj in Hn, Hv.
  set (o := MO None common at_ (dv ++ [mname; msupp; mtit; mvirt])).
  assert (A : forall k x, col_attr (MO None common at_ (dv ++ x)) (11 + k) = nth k x (MJ JNull)).
  { intros k x. unfold col_attr. cbn [o_vals]. rewrite app_nth2, Ld by lia. f_equal. lia. }
  assert (Nm : col_name o = converter TStr JNull true no_cond (getdef (member d (lit "name")) JNull)).
  { unfold o, col_name. rewrite (A 0). cbn [nth]. rewrite <- Hn. reflexivity. }
  assert (Tm : col_titles o = match mtit with MTitles nl => Some nl | _ => None end).
  { unfold o, col_titles. rewrite (A 2). reflexivity. }
  assert (Vm : col_virtual o = truthy (converter TBool (JBool false) false no_cond (getdef (member d (lit "virtual")) (JBool false)))).
  { unfold o, col_virtual. rewrite (A 3). cbn [nth]. rewrite <- Hv. reflexivity. }
  clearbody o. clear A Hn Hv Hname Hvirt Htit Hsupp.
  assert (Name : name_of false d (match col_name o with JStr s => Some s | _ => None end)).
  { rewrite Nm. destruct (member d (lit "name")) as [j|] eqn:M; cbn [getdef].
    - destruct j; cbn [converter isinst andb no_cond conv_item]; try (apply nm_none; intros x; rewrite M; discriminate).
      apply nm_some; [exact M|]. intros [O _]; discriminate O.
    - apply nm_none. intros x. rewrite M; discriminate. }
  assert (Title : forall t, match col_titles o with None | Some [] => Ok None | Some nl => nl_getfirst nl None end = Ok t -> title_of d t).
  { intros t G. rewrite Tm in G. destruct (member d (lit "titles")) as [j|] eqn:M; cbn [getdef] in Ht.
    2:{ apply Ok_inj in Ht. subst mtit. apply Ok_inj in G. subst t. apply ti_none; intros x; rewrite M; discriminate. }
    destruct (nl_init (w_tag_ok W) j) as [nl|e] eqn:I.
    - assert (Hm : j <> JNull) by (intros ->; discriminate I). assert (mtit = MTitles nl) by (destruct j; try congruence; symmetry; apply Ok_inj; exact Ht). subst mtit.
      destruct nl as [|p nl]; [apply (nl_title W d []); [rewrite M; exact I|exact G]|]. apply (nl_title W d (p :: nl)); [rewrite M; exact I|exact G].
    - assert (mtit = MJ JNull).
      { destruct j; try (destruct e; try discriminate Ht; apply Ok_inj in Ht; congruence). }
      subst mtit. apply Ok_inj in G. subst t.
      destruct j; try discriminate I; try (apply ti_none; intros x; rewrite M; discriminate).
      cbn [nl_init] in I. destruct (forallb is_str l); discriminate I. }
  assert (Hd : forall num h, col_header num o = Ok h -> exists on, name_of false d on /\
    ((exists x s, on = Some (x :: s) /\ h = x :: s) \/ (on = None \/ on = Some []) /\ exists t, title_of d t /\
       ((exists x s, t = Some (x :: s) /\ h = x :: s) \/ (t = None \/ t = Some []) /\ h = col_n num))).
  { intros num h G. unfold col_header in G. exists (match col_name o with JStr s => Some s | _ => None end). split; [exact Name|].
    assert (Tl : (t <- match col_titles o with None | Some [] => Ok None | Some nl => nl_getfirst nl None end ;; match t with Some (x :: s) => Ok (x :: s) | _ => Ok (col_n num) end) = Ok h ->
      exists t, title_of d t /\ ((exists x s, t = Some (x :: s) /\ h = x :: s) \/ (t = None \/ t = Some []) /\ h = col_n num)).
    { intros G'. destruct (match col_titles o with None | Some [] => Ok None | Some nl => nl_getfirst nl None end) as [t|] eqn:Ft; [|discriminate G'].
      exists t. split; [exact (Title t eq_refl)|]. cbn [bind] in G'. destruct t as [[|x s]|]; apply Ok_inj in G'; subst h; eauto. }
    destruct (col_name o) as [| | | |[|x s]| |]; try (right; split; [auto|apply Tl; exact G]). apply Ok_inj in G. subst h. left. eauto. }
  split.
  - intros n Nn. unfold nonempty_name. rewrite Nm. destruct (member d (lit "name")) as [j|]; cbn [getdef].
    + destruct j; cbn [converter isinst andb no_cond conv_item]; (split; [intros X|intros [X _]]); try discriminate X; [|congruence]. injection X as ->. auto.
    + split; [discriminate|intros [X _]; discriminate X].
  - intros O. rewrite Vm. unfold is_virtual. destruct (member d (lit "virtual")) as [j|] eqn:M; cbn [getdef].
    + rewrite nested_bool_truthy; [|apply (cr_flags _ _ _ (oo_rule _ _ _ _ O _ j (dget_Some_In _ _ _ M))); cbn [map In]; auto].
      split; [intros T; exists j; auto|]. intros (j' & E & T). injection E as <-. exact T.
    + split; [discriminate|]. intros (j' & E & T). discriminate E.
  - intros h G. destruct (Hd None h G) as (on & N1 & [(x & s & -> & ->)|(On & t & T & [(x & s & -> & ->)|(Tn & ->)])]).
    + apply hd_name; [exact N1|discriminate].
    + apply (hd_title d on); [exact N1|exact On|exact T|discriminate].
    + apply (hd_none d on t); assumption.
  - intros n h G. destruct (Hd (Some n) h G) as (on & N1 & [(x & s & -> & ->)|(On & t & T & [(x & s & -> & ->)|(Tn & ->)])]).
    + apply ky_name; [exact N1|discriminate].
    + apply (ky_title false d n on); [exact N1|exact On|exact T|discriminate].
    + apply (ky_number false d n on t); assumption.
Qed.

(** ** The list of columns *)
Lemma column_warns_falsy : column_warns W (JList []) = column_warns W (JObj []).
Proof. reflexivity. Qed.
Lemma empty_in_order : column_in_order W [].
Proof. split; intros; contradiction. Qed.
Lemma columns_list_nil l cols : Forall wf_json l -> mapM (fromvalue W (Column_class W)) (dict_items l) = Ok cols ->
  exists ds, column_objects l ds /\ Forall2 (fun d o => wf_json (JObj d) /\ fromvalue W (Column_class W) (JObj d) = Ok o) ds cols /\
    (flat_map dict_warns l ++ flat_map (column_warns W) (dict_items l) = [] <-> (forall x, In x l -> column_entry x) /\ forall d, In d ds -> column_in_order W d).
Proof.
  intros Wf E. apply mapM_Forall2 in E. revert cols Wf E. induction l as [|x l IH]; intros cols Wf E.
  - inversion E; subst. exists []. split; [constructor|]. split; [constructor|]. split; [intros _; split; intros x []|reflexivity].
  - apply Forall_cons_iff in Wf. destruct Wf as [Wx Wf]. unfold dict_items in *. cbn [flat_map] in *. destruct x as [|b|z|m|s|y|d].
    1-5: destruct (IH cols Wf E) as (ds & C & F & _); exists ds; (split; [apply co_other; [discriminate|discriminate|exact C]|]); (split; [exact F|]);
         (split; [discriminate|]); intros [X _]; destruct (X _ (or_introl eq_refl)) as [Y|(d & Y)]; discriminate Y.
    + destruct (conv_dict (JList y)) as [w|] eqn:Cy; [|cbn in Cy; discriminate Cy]. cbn [app] in E. inversion E as [|? o ? cols' Ho E']; subst.
      assert (exists y', w = JList y') as [y' ->] by (cbn [conv_dict] in Cy; injection Cy as <-; eexists; reflexivity).
      pose proof (fromvalue_list W _ _ _ Ho) as ->. destruct (IH cols' Wf E') as (ds & C & F & Q). exists ([] :: ds).
      pose proof (conv_dict_list y [] Cy eq_refl) as Y. 
      assert (Ho' : fromvalue W (Column_class W) (JObj []) = Ok o) by (rewrite <- (fromvalue_falsy W _ (JList [])); [exact Ho|reflexivity]).
      assert (W0 : wf_json (JObj [])) by (apply wf_obj; split; [constructor|intros k v []]).
      split; [apply co_empty; [exact Y|exact C]|]. split; [constructor; [split; assumption|exact F]|].
      cbn [flat_map app]. rewrite !app_nil_iff, column_warns_falsy.
      rewrite app_nil_iff in Q. pose proof (column_nil W Und [] o W0 Ho') as Cn.
      assert (D : dict_warns (JList y) = [] <-> y = []).
      { cbn [dict_warns]. rewrite flat_map_nil. split; [|intros ->; intros z []]. intros X. destruct y as [|z y]; [reflexivity|].
        specialize (X z (or_introl eq_refl)). destruct (Y z (or_introl eq_refl)) as [Y1 Y2]. destruct z; try discriminate X; [elim (Y2 _ eq_refl)|elim (Y1 _ eq_refl)]. }
      rewrite D, Cn. split.
      * intros ((-> & X1) & X2 & X3). destruct (proj1 Q (conj X1 X3)) as [Q1 Q2]. split; [intros z [<-|I]; [left; reflexivity|exact (Q1 z I)]|]. intros d [<-|I]; [exact X2|exact (Q2 d I)].
      * intros [X1 X2]. destruct (proj2 Q (conj (fun z I => X1 z (or_intror I)) (fun d I => X2 d (or_intror I)))) as [Q1 Q2].
        split; [split; [|exact Q1]|split; [apply X2; left; reflexivity|exact Q2]]. destruct (X1 _ (or_introl eq_refl)) as [Z|(d & Z)]; [injection Z as ->; reflexivity|discriminate Z].
    + cbn [conv_dict app] in *. inversion E as [|? o ? cols' Ho E']; subst. destruct (IH cols' Wf E') as (ds & C & F & Q). exists (d :: ds).
      split; [apply co_object; exact C|]. split; [constructor; [split; [exact Wx|exact Ho]|exact F]|]. cbn [flat_map dict_warns app].
      rewrite !app_nil_iff. rewrite app_nil_iff in Q. rewrite (column_nil W Und d o Wx Ho). split.
      * intros (X1 & X2 & X3). destruct (proj1 Q (conj X1 X3)) as [Q1 Q2]. split; [intros z [<-|I]; [right; eauto|exact (Q1 z I)]|]. intros d' [<-|I]; [exact X2|exact (Q2 d' I)].
      * intros [X1 X2]. destruct (proj2 Q (conj (fun z I => X1 z (or_intror I)) (fun d' I => X2 d' (or_intror I)))) as [Q1 Q2]. split; [exact Q1|split; [apply X2; left; reflexivity|exact Q2]].
Qed.

(** names and headings *)
Lemma all_virtual ds cols : Forall2 column_facts ds cols -> (forall d, In d ds -> column_in_order W d) ->
  forall ns, cols_ok true ns cols = Ok tt -> forall d, In d ds -> is_virtual d.
Proof.
  induction 1 as [|d o ds cols Hf F IH]; intros O ns H d' I; [destruct I|]. cbn [cols_ok] in H.
  destruct (match col_name o with JList (_ :: _) => true | _ => false end); [discriminate H|]. destruct (col_virtual o) eqn:V; [|discriminate H]. cbn [negb andb orb] in H.
  destruct I as [<-|I]; [apply (cf_virtual _ _ Hf); [apply O; left; reflexivity|exact V]|]. apply (IH (fun d I => O d (or_intror I)) ns H d' I).
Qed.
Definition fresh_headings (seen : list pystr) (ds : list object) : Prop := forall d h, In d ds -> ~ is_virtual d -> heading d h -> ~ In h seen.
Definition distinct_headings (ds : list object) : Prop := forall i j d d' h, i < j -> nth_error ds i = Some d -> nth_error ds j = Some d' ->
    ~ is_virtual d -> ~ is_virtual d' -> heading d h -> ~ heading d' h.
Lemma cols_nil ds cols : Forall2 column_facts ds cols -> (forall d, In d ds -> column_in_order W d) ->
  forall v seen ns, cols_ok v ns cols = Ok tt ->
  (cols_warns v seen cols = [] <-> (forall d n, In d ds -> nonempty_name d n -> ~ odd n) /\ distinct_headings ds /\ fresh_headings seen ds).
Proof.
  induction 1 as [|d o ds cols Hf F IH]; intros O v seen ns H.
  - split; [|reflexivity]. intros _. split; [intros d n []|]. split; [intros [|i] j d d' h _ X; discriminate X|intros d h []].
  - assert (Od : column_in_order W d) by (apply O; left; reflexivity). assert (O' : forall d, In d ds -> column_in_order W d) by (intros x I; apply O; right; exact I).
    cbn [cols_warns]. rewrite app_nil_iff.
    assert (Nm : match col_name o with JStr (x :: n) => if bad_name (x :: n) then [LColumn InvalidColumnName] else [] | _ => [] end = [] <-> forall n, nonempty_name d n -> ~ odd n).
    { destruct (col_name o) as [| | | |[|x n]| |] eqn:En.
      1-5,7-8: split; [|reflexivity]; intros _ m Nn; pose proof Nn as [_ Ne]; apply (cf_name _ _ Hf m Ne) in Nn; rewrite En in Nn; congruence.
      pose proof (odd_iff (x :: n)) as Q. destruct (bad_name (x :: n)).
      - split; [discriminate|]. intros X. elim (X (x :: n)); [|apply Q; reflexivity]. apply (cf_name _ _ Hf); [discriminate|exact En].
      - split; [|reflexivity]. intros _ m Nn Om. pose proof Nn as [_ Ne]. apply (cf_name _ _ Hf m Ne) in Nn. rewrite En in Nn. injection Nn as <-. apply Q in Om. discriminate Om. }
    rewrite Nm. clear Nm. cbn [cols_ok] in H. destruct (match col_name o with JList (_ :: _) => true | _ => false end); [discriminate H|].
    destruct (negb (col_virtual o) && v) eqn:E1; [discriminate H|]. destruct (v || col_virtual o) eqn:E2.
    + assert (Cv : col_virtual o = true) by (destruct v, (col_virtual o); try discriminate E1; try discriminate E2; reflexivity).
      apply (cf_virtual _ _ Hf Od) in Cv. rewrite (IH O' true seen ns H). pose proof (all_virtual ds cols F O' ns H) as Av. split.
      * intros (X1 & X2 & _). split; [intros d' n [<-|I]; [apply X1|apply X2; exact I]|]. split.
        -- intros i j d1 d2 h _ _ Hj _ N2. elim N2. apply nth_error_In in Hj. destruct Hj as [<-|I]; [exact Cv|exact (Av _ I)].
        -- intros d' h [<-|I] Nv; elim Nv; [exact Cv|exact (Av _ I)].
      * intros (X1 & _). split; [intros n; apply X1; left; reflexivity|]. split; [intros d' n I; apply X1; right; exact I|]. split.
        -- intros i j d1 d2 h _ _ Hj _ N2. elim N2. apply nth_error_In in Hj. exact (Av _ Hj).
        -- intros d' h I Nv; elim Nv; exact (Av _ I).
    + apply orb_false_iff in E2. destruct E2 as [-> Ev]. assert (Nv : ~ is_virtual d) by (intros X; apply (cf_virtual _ _ Hf Od) in X; congruence).
      destruct (col_header None o) as [h|] eqn:Eh; [|discriminate H]. cbn [bind] in H. apply (cf_heading _ _ Hf) in Eh.
      assert (exists ns', cols_ok false ns' cols = Ok tt) as [ns' H'] by (destruct (col_name o) as [| | | |[|x n]| |]; eauto; destruct (str_mem (x :: n) ns); [discriminate H|eauto]).
      rewrite app_nil_iff, (IH O' false (h :: seen) ns' H').
      assert (S : (if str_mem h seen then [LColumn DuplicateColumnName] else []) = [] <-> ~ In h seen).
      { pose proof (str_mem_In h seen) as Q. destruct (str_mem h seen); [split; [discriminate|intros X; elim X; apply Q; reflexivity]|]. split; [|reflexivity]. intros _ X. apply Q in X. discriminate X. }
      rewrite S. clear S. split.
      * intros (X1 & X2 & X3 & X4 & X5). split; [intros d' n [<-|I]; [apply X1|apply X3; exact I]|]. split.
        -- intros [|i] [|j] d1 d2 h' L H1 H2 N1 N2 Q1 Q2; try lia; cbn [nth_error] in *.
           ++ injection H1 as ->. apply (X5 d2 h' (nth_error_In _ _ H2) N2 Q2). left. exact (heading_fun _ _ _ Eh Q1).
           ++ refine (X4 i j d1 d2 h' _ H1 H2 N1 N2 Q1 Q2). lia.
        -- intros d' h' [<-|I] Nv' Q; [pose proof (heading_fun _ _ _ Eh Q) as <-; exact X2|]. intros S. apply (X5 d' h' I Nv' Q). right; exact S.
      * intros (X1 & X2 & X3). split; [intros n; apply X1; left; reflexivity|]. split; [apply (X3 d h (or_introl eq_refl) Nv Eh)|].
        split; [intros d' n I; apply X1; right; exact I|]. split.
        -- intros i j d1 d2 h' L H1 H2. apply (X2 (S i) (S j)); [lia|exact H1|exact H2].
        -- intros d' h' I Nv' Q [<-|S]; [|exact (X3 d' h' (or_intror I) Nv' Q S)]. apply In_nth_error in I. destruct I as [j Hj]. apply (X2 0 (S j) d d' h); [lia|reflexivity|exact Hj|exact Nv|exact Nv'|exact Eh|exact Q].
Qed.

(** ** Primary keys *)
Lemma numbered_nth (cols : list (mobj B)) : forall i k, nth_error (number_from i cols) k =
  match nth_error cols k with Some o => Some (MO (Some (S (i + k))) (o_common o) (o_at o) (o_vals o)) | None => None end.
Proof.
  induction cols as [|[nn c a v] cols IH]; intros i [|k]; cbn [number_from nth_error]; try reflexivity.
  - rewrite Nat.add_0_r. reflexivity.
  - rewrite IH. destruct (nth_error cols k); [|reflexivity]. do 3 f_equal. lia.
Qed.
Lemma numbered_length (cols : list (mobj B)) : forall i, length (number_from i cols) = length cols.
Proof. induction cols as [|[nn c a v] cols IH]; intros i; [reflexivity|]. cbn [number_from length]. f_equal. apply IH. Qed.
Lemma pk_each_nil cols refs : pk_warns cols refs = [] <-> forall r, In r refs -> pk_warns (B := B) cols [r] = [].
Proof.
  induction refs as [|r refs IH]; [split; [intros _ r []|reflexivity]|]. cbn [pk_warns]. rewrite app_nil_iff, IH. split.
  - intros [X1 X2] r' [<-|I]; [|exact (X2 r' I)]. rewrite app_nil_r. exact X1.
  - intros X. split; [|intros r' I; apply X; right; exact I]. specialize (X r (or_introl eq_refl)). cbn [pk_warns] in X. rewrite app_nil_r in X. exact X.
Qed.
Lemma pk_ok_headers (cols : list (mobj B)) r refs acc pk : pk_ok cols (r :: refs) acc = Ok pk -> exists hs, mapM (fun c => col_header (o_num c) c) cols = Ok hs.
Proof. cbn [pk_ok]. destruct (mapM (fun c => col_header (o_num c) c) cols) as [hs|]; [eauto|discriminate]. Qed.
Lemma nth_combine {X Y} (xs : list X) (ys : list Y) i : nth_error (combine xs ys) i = match nth_error xs i, nth_error ys i with Some a, Some b => Some (a, b) | _, _ => None end.
Proof. revert ys i. induction xs as [|x xs IH]; intros [|y ys] [|i]; cbn; try reflexivity; [destruct (nth_error xs i); reflexivity|apply IH]. Qed.
Lemma pk_one_nil ds cols hs k : Forall2 column_facts ds cols -> mapM (fun c => col_header (o_num c) c) (number_from 0 cols) = Ok hs ->
  (pk_warns (number_from 0 cols) [JStr k] = [] <->
   forall i d, nth_error ds i = Some d -> key_of false d (S i) k -> (forall j d', i < j -> nth_error ds j = Some d' -> ~ key_of false d' (S j) k) -> exists n, nonempty_name d n).
Proof.
  intros F M. cbn [pk_warns]. rewrite M, app_nil_r, (dget_dset_all str_eqb str_eqb_eq). cbn [dget].
  pose proof (dget_last (combine hs (number_from 0 cols)) k) as L.
  apply mapM_Forall2 in M.
  assert (At : forall i d, nth_error ds i = Some d -> exists o h, nth_error cols i = Some o /\ column_facts d o /\
     nth_error (combine hs (number_from 0 cols)) i = Some (h, MO (Some (S i)) (o_common o) (o_at o) (o_vals o)) /\ key_of false d (S i) h).
  { intros i d Hd. destruct (nth_error_F2 _ _ _ i d F Hd) as (o & Ho & Fo).
    assert (Hn : nth_error (number_from 0 cols) i = Some (MO (Some (S i)) (o_common o) (o_at o) (o_vals o))) by (rewrite numbered_nth, Ho; reflexivity).
    destruct (nth_error_F2 _ _ _ i _ M Hn) as (h & Hh & Ch). exists o, h. split; [exact Ho|]. split; [exact Fo|]. split; [rewrite nth_combine, Hh, Hn; reflexivity|].
    apply (cf_key _ _ Fo). exact Ch. }
  assert (Dom : forall i h c, nth_error (combine hs (number_from 0 cols)) i = Some (h, c) -> exists d, nth_error ds i = Some d).
  { intros i h c X. destruct (nth_error ds i) eqn:Q; [eauto|]. exfalso. apply nth_error_None in Q. rewrite (Forall2_length _ _ _ F) in Q. rewrite <- (numbered_length cols 0) in Q. apply nth_error_None in Q.
    rewrite nth_combine, Q in X. destruct (nth_error hs i); discriminate X. }
  destruct (dget str_eqb (rev (combine hs (number_from 0 cols))) k) as [c|].
  - destruct L as (i & Hi & Last). destruct (Dom i k c Hi) as [d Hd]. destruct (At i d Hd) as (o & h & Ho & Fo & Hc & Kh). rewrite Hi in Hc. injection Hc as <- ->.
    assert (Cn : col_name (MO (Some (S i)) (o_common o) (o_at o) (o_vals o)) = col_name o) by reflexivity. rewrite Cn.
    assert (Lst : forall j d', i < j -> nth_error ds j = Some d' -> ~ key_of false d' (S j) k).
    { intros j d' Lt Hj Kj. destruct (At j d' Hj) as (o' & h' & _ & _ & Hc' & Kh'). pose proof (key_of_fun _ _ _ _ Kj Kh') as <-. exact (Last j _ Lt Hc'). }
    assert (Nn : match col_name o with JStr (_ :: _) => [] | _ => [LColumn PrimaryKeyWithoutName] end = [] <-> exists n, nonempty_name d n).
    { destruct (col_name o) as [| | | |[|x n]| |] eqn:En.
      1-5,7-8: split; [discriminate|]; intros [m Nn]; pose proof Nn as [_ Ne]; apply (cf_name _ _ Fo m Ne) in Nn; rewrite En in Nn; congruence.
      split; [|reflexivity]. intros _. exists (x :: n). apply (cf_name _ _ Fo); [discriminate|exact En]. }
    rewrite Nn. split.
    + intros X i' d' Hd' K' L'. assert (i' = i) as ->; [|rewrite Hd in Hd'; injection Hd' as <-; exact X]. destruct (lt_eq_lt_dec i' i) as [[Lt|E]|Lt]; [elim (L' i d Lt Hd Kh)|exact E|elim (Lst i' d' Lt Hd' K')].
    + intros X. exact (X i d Hd Kh Lst).
  - split; [|reflexivity]. intros _ i d Hd K _. destruct (At i d Hd) as (o & h & _ & _ & Hc & Kh). pose proof (key_of_fun _ _ _ _ K Kh) as <-. elim (L i _ Hc).
Qed.

(** ** Schemas *)
Lemma schema_names_keys k : In k (field_names (Schema_class W)) <-> In k schema_keys.
Proof. reflexivity. Qed.
Lemma fkeys_nil v l : conv_fkeys v = Ok l -> (fkeys_warns v = [] <-> v = JNull \/ v = JObj [] \/ exists l, v = JList l /\ forall x, In x l -> exists d, x = JObj d).
Proof.
  destruct v as [|b|z|m|s|l0|kvs]; cbn [conv_fkeys fkeys_warns]; try discriminate; intros _.
  - split; [auto|reflexivity].
  - rewrite app_nil_iff, !flat_map_nil. split.
    + intros [X Y]. right. right. exists l0. split; [reflexivity|]. intros x I. specialize (X x I). destruct x as [|b|z|m|s|y|d]; try discriminate X; [|eauto].
      assert (Z : In (JList ((fix go l := match l with [] => [] | x :: l' => match conv_dict x with Some y => y :: go l' | None => go l' end end) y)) (dict_items l0)).
      { unfold dict_items. apply in_flat_map. exists (JList y). split; [exact I|]. cbn [conv_dict]. left. reflexivity. }
      specialize (Y _ Z). discriminate Y.
    + intros [E|[E|(l1 & E & A)]]; try discriminate E. injection E as <-. split.
      * intros x I. destruct (A x I) as [d ->]. reflexivity.
      * intros x I. unfold dict_items in I. apply in_flat_map in I. destruct I as (y & Iy & Ix). destruct (A y Iy) as [d ->]. destruct Ix as [<-|[]]. reflexivity.
  - rewrite map_nil_iff. split; [intros ->; auto|]. intros [E|[E|(l1 & E & _)]]; congruence.
Qed.
Lemma refs_in s k : In (JStr k) (match conv_colref (getdef (member s (lit "primaryKey")) JNull) with JList l => l | _ => [] end) <-> in_primary_key s k.
Proof.
  unfold in_primary_key. destruct (member s (lit "primaryKey")) as [j|]; cbn [getdef].
  2:{ split; [intros []|]. intros (v & E & _). discriminate E. }
  split.
  - intros I. exists j. split; [reflexivity|]. destruct j as [|b|z|m|t|l|d]; cbn [conv_colref In] in I; try (destruct I as [X|[]]; discriminate X); [destruct I| |right; exists l; auto].
    destruct I as [X|[]]. left. exact X.
  - intros (v & E & [->|(l' & -> & I)]); injection E as ->; [left; reflexivity|exact I].
Qed.
Theorem schema_nil s o : wf_json (JObj s) -> fromvalue W (Schema_class W) (JObj s) = Ok o ->
  (fromvalue_warns W (Schema_class W) (schema_table W) (schema_post_warns (B := B)) (JObj s) = [] <-> schema_object_in_order W s).
Proof.
  intros Wf H. destruct (fromvalue_quiet W (Schema_class W) (schema_table W) (schema_post_warns (B := B)) s o Wf (schema_names W) H) as (common & at_ & vals & Fv & E & _ & Q).
  rewrite Q. clear Q. unfold schema_object_in_order. rewrite <- (object_rule (Schema_class W) (fun k => In k schema_keys) (schema_rule W) s schema_names_keys).
  cbn [cl_fields Schema_class] in *. unfold schema_fields in *. apply F2_app_inv in Fv. destruct Fv as (dv & cv & -> & Fd & Fc).
  assert (Ld : length dv = 11) by (symmetry; exact (Forall2_length _ _ _ Fd)).
  inversion Fc as [|? mcols ? ? Hcols Fc1]; subst. inversion Fc1 as [|? mfks ? ? Hfks Fc2]; subst. inversion Fc2 as [|? mpk ? ? Hpk Fc3]; subst.
  inversion Fc3 as [|? mrow ? ? Hrow Fc4]; subst. inversion Fc4; subst. clear Fc Fc1 Fc2 Fc3 Fc4.
  assert (Hc : (cols <- mapM (fromvalue W (Column_class W)) (dict_items (match getdef (member s (lit "columns")) (JList []) with JList l => l | _ => [] end)) ;; Ok (MObjs cols)) = Ok mcols) by exact Hcols.
  assert (Hp : Ok (MJ (conv_colref (getdef (member s (lit "primaryKey")) JNull))) = Ok mpk) by exact Hpk.
  assert (Hk : (l <- conv_fkeys (getdef (member s (lit "foreignKeys")) (JList [])) ;; Ok (MFks l)) = Ok mfks) by exact Hfks.
  destruct (mapM _ _) as [cols|] eqn:Mc in Hc; [|discriminate Hc]. cbn [bind] in Hc. apply Ok_inj in Hc. subst mcols. apply Ok_inj in Hp. subst mpk.
  destruct (conv_fkeys _) as [fks|] eqn:Ek in Hk; [|discriminate Hk]. clear Hk Hcols Hpk Hfks Hrow.
  cbn [cl_post Schema_class] in E. unfold schema_post in E. cbn [o_vals o_num o_common o_at] in E.
  assert (Sk : forall x, skipn 11 (dv ++ x) = x) by (intros x; rewrite <- Ld, skipn_app, skipn_all, Nat.sub_diag; reflexivity).
  rewrite Sk in E. destruct (cols_ok false [] cols) as [[]|] eqn:Ck; [|discriminate E]. cbn [bind] in E.
  destruct (pk_ok _ _ _) as [pk'|] eqn:P; [|discriminate E]. clear E.
  unfold schema_post_warns. cbn [o_vals]. rewrite Sk, app_nil_iff.
  rewrite quiet_app, (description_quiet W Und _ s dv Wf) by (first [exact Fd|intros f Hf; cbn [description_fields In] in Hf; repeat (destruct Hf as [<-|Hf]; [reflexivity|]); destruct Hf]).
  pose proof (proj1 (wf_obj s) Wf) as [Nd Wfm].
  rewrite quiet_Forall, !Forall_cons_iff.
  (* the columns *)
  assert (exists ds, columns_of s ds /\ (forall ds', columns_of s ds' -> ds' = ds) /\ Forall2 (fun d o => wf_json (JObj d) /\ fromvalue W (Column_class W) (JObj d) = Ok o) ds cols /\
    (columns_warns W (getdef (member s (lit "columns")) (JList [])) = [] <->
     (forall v, In (lit "columns", v) s -> exists l, v = JList l /\ forall x, In x l -> column_entry x) /\ forall d, In d ds -> column_in_order W d)) as (ds & Co & Un & Fo & Qc).
  { unfold columns_of. destruct (member s (lit "columns")) as [j|] eqn:M; cbn [getdef] in *.
    - assert (Only : forall v, In (lit "columns", v) s -> v = j) by (intros v I; apply (In_dget s _ v Nd) in I; unfold member in M; congruence).
      pose proof (dget_Some_In _ _ _ M) as Ij.
      destruct j as [|b|z|m|t|l|d].
      1-5,7: cbn in Mc; apply Ok_inj in Mc; subst cols; exists []; (split; [reflexivity|]); (split; [auto|]); (split; [constructor|]); (split; [discriminate|]);
        intros [X _]; destruct (X _ Ij) as (l & E & _); discriminate E.
      destruct (columns_list_nil l cols) as (ds & C & F & Q); [|exact Mc|].
      + apply Forall_forall. intros x Hx. apply (proj1 (wf_list l) (member_wf _ _ _ Wf M)). exact Hx.
      + exists ds. split; [exact C|]. split; [intros ds' C'; exact (column_objects_fun _ _ _ C' C)|]. split; [exact F|].
        cbn [columns_warns conv_warns isinst no_cond andb app]. rewrite Q. apply and_iff_compat_r. split.
        * intros X v I. rewrite (Only v I). eauto.
        * intros X. destruct (X _ Ij) as (l' & E & A). injection E as <-. exact A.
    - cbn in Mc. apply Ok_inj in Mc. subst cols. exists []. split; [reflexivity|]. split; [auto|]. split; [constructor|]. split; [|reflexivity].
      intros _. split; [|intros d []]. intros v I. apply (In_dget s _ v Nd) in I. unfold member in M. congruence. }
  assert (Ff : Forall2 column_facts ds cols) by (eapply ColumnProofs2.Forall2_impl; [|exact Fo]; intros d0 o0 [X1 X2]; exact (column_facts_of d0 o0 X1 X2)).
  assert (Qf : fkeys_warns (getdef (member s (lit "foreignKeys")) (JList [])) = [] <->
    forall v, In (lit "foreignKeys", v) s -> v = JNull \/ v = JObj [] \/ exists l, v = JList l /\ forall x, In x l -> exists d, x = JObj d).
  { apply attr_q; [exact Nd|reflexivity|]. intros v I. apply (fkeys_nil v fks). unfold member in Ek. rewrite (In_dget s _ v Nd I) in Ek. exact Ek. }
  set (refs := match conv_colref (getdef (member s (lit "primaryKey")) JNull) with JList l => l | _ => [] end) in *.
  assert (Rf : forall k, In (JStr k) refs <-> in_primary_key s k) by (intros k; apply refs_in).
  assert (Qp : pk_warns (number_from 0 cols) refs = [] <-> key_columns_named s ds).
  { rewrite pk_each_nil. unfold key_columns_named. destruct refs as [|r0 rs] eqn:Er.
    - split; [intros _ k i d I; apply Rf in I; destruct I|intros _ r []].
    - destruct (pk_ok_headers _ _ _ _ _ P) as [hs Hs]. split.
      + intros X k i d I. apply Rf in I. intros Hd Kd L. exact (proj1 (pk_one_nil ds cols hs k Ff Hs) (X _ I) i d Hd Kd L).
      + intros X r I. destruct r as [| | | |k| |]; try reflexivity. apply (pk_one_nil ds cols hs k Ff Hs). intros i d Hd. exact (X k i d (proj1 (Rf k) I) Hd). }
  rewrite Qp.
  change (getdef (dget str_eqb (schema_table W) (fd_name (columns_field W))) (fun _ => []) (getdef (member s (fd_name (columns_field W))) (fd_default (columns_field W))) )
    with (columns_warns W (getdef (member s (lit "columns")) (JList []))).
  split.
  - intros (K & (I1 & A1 & A2 & _) & C1 & Kn). apply Qc in A1. destruct A1 as [A1 A1']. pose proof (proj1 Qf A2) as A2'.
    apply (cols_nil ds cols Ff A1' false [] [] Ck) in C1. destruct C1 as (C1 & C2 & _).
    split; [split; [exact K|]|].
    + intros k v I. split; [exact (I1 k v I)|intros ->; exact (A1 v I)|intros ->; exact (A2' v I)].
    + exists ds. split; [exact Co|]. split; [|exact Kn]. split; assumption.
  - intros ((K & R) & ds' & Co' & [C0 C1 C2] & Kn). pose proof (Un ds' Co') as ->. split; [exact K|]. split; [|split; [|exact Kn]].
    + split; [intros k v I; exact (sr_inherited _ _ _ (R k v I))|]. split; [apply Qc; split; [intros v I; exact (sr_columns _ _ _ (R _ v I) eq_refl)|exact C0]|].
      split; [apply (proj2 Qf); intros v I; exact (sr_foreignKeys _ _ _ (R _ v I) eq_refl)|]. split; [reflexivity|]. split; [reflexivity|constructor].
    + apply (cols_nil ds cols Ff C0 false [] [] Ck). split; [exact C1|]. split; [exact C2|]. intros d h _ _ _ [].
Qed.
End Schemas.
