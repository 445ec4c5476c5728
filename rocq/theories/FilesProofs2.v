(** Lemmas for C55. *)
From Verif Require Import PyStr PyCsv Dsv DsvSpec DsvProofs4 Json Column Schema Table TableSpec TableProofs5 TableProofs6 Zip ZipSpec ZipProofs Locate LocateSpec DbProofs DbReadProofs3 JsonldProofs TripleProofs Files FilesSpec FilesProofs Props_Zip.

Section Proofs.
Context {V : Type} (sc : scalars V) (expand : pystr -> dict V -> res pystr).
Variables (env : fenv) (pv : pyver) (lim : N).
Implicit Types (g : fgroup V) (t : ftable V) (fs : files).

Lemma creatable_ok p : can_create env p -> creatable env p = true.
Proof. intros (d & n & D & C & -> & A & B). unfold creatable. rewrite parent_in by assumption. rewrite A, B. reflexivity. Qed.
Lemma dialect_ok g t : has_dialect g t (dialect_of g t).
Proof. unfold has_dialect, dialect_of. destruct (t_dialect t); [left; reflexivity|right; split; [reflexivity|]]. destruct (gr_dialect g); [left|right; split]; reflexivity. Qed.
Lemma dialect_unique g t d : has_dialect g t d -> d = dialect_of g t.
Proof. unfold dialect_of. intros [-> |[-> [-> |[-> ->]]]]; reflexivity. Qed.
Lemma rev_find (l : list (ftable V)) n t : dget str_eqb (rev (map (fun t => (t_url t, t)) l)) n = Some t <-> exists pre post, l = pre ++ t :: post /\ t_url t = n /\ forall t', In t' post -> t_url t' <> n.
Proof.
  induction l as [|x l IH] using rev_ind.
  - split; [discriminate|]. intros (pre & post & E & _). destruct pre; discriminate E.
  - rewrite map_app, rev_app_distr. cbn [map rev app dget]. destruct (str_eqb n (t_url x)) eqn:E.
    + apply str_eqb_eq in E. split.
      * intros X. injection X as ->. exists l, []. split; [reflexivity|]. split; [symmetry; exact E|intros t' []].
      * intros (pre & post & El & Et & Hp). destruct post as [|y post _] using rev_ind.
        { apply app_inj_tail in El. destruct El as [_ ->]. reflexivity. }
        { change (t :: post ++ [y]) with ((t :: post) ++ [y]) in El. rewrite app_assoc in El. apply app_inj_tail in El. destruct El as [_ ->]. exfalso. apply (Hp y); [apply in_or_app; right; left; reflexivity|symmetry; exact E]. }
    + apply str_eqb_neq in E. rewrite IH. split.
      * intros (pre & post & -> & Et & Hp). exists pre, (post ++ [x]). split; [rewrite <- app_assoc; reflexivity|]. split; [exact Et|]. intros t' I. apply in_app_or in I. destruct I as [I|[<-|[]]]; [apply Hp; exact I|congruence].
      * intros (pre & post & El & Et & Hp). destruct post as [|y post _] using rev_ind.
        { apply app_inj_tail in El. destruct El as [_ ->]. congruence. }
        { change (t :: post ++ [y]) with ((t :: post) ++ [y]) in El. rewrite app_assoc in El. apply app_inj_tail in El. destruct El as [-> ->]. exists pre, post. split; [reflexivity|]. split; [exact Et|]. intros t' I. apply Hp. apply in_or_app. left; exact I. }
Qed.
Lemma named_iff g n t : dget str_eqb (tables_by_name g) n = Some t <-> named g n t.
Proof.
  unfold tables_by_name, named. rewrite (dget_dset_all str_eqb str_eqb_eq). rewrite <- rev_find. destruct (dget str_eqb (rev (map (fun t0 : ftable V => (t_url t0, t0)) (gr_tables g))) n) eqn:E; [reflexivity|]. cbn [dget]. split; discriminate.
Qed.
Lemma unnamed_iff g n : dget str_eqb (tables_by_name g) n = None <-> forall t, ~ named g n t.
Proof.
  split.
  - intros H t K. apply named_iff in K. rewrite K in H. discriminate H.
  - intros H. destruct (dget str_eqb (tables_by_name g) n) as [t|] eqn:E; [|reflexivity]. apply named_iff in E. destruct (H t E).
Qed.
Lemma named_url g n t : named g n t -> t_url t = n /\ In t (gr_tables g).
Proof. intros (pre & post & E & U & _). split; [exact U|]. rewrite E. apply in_or_app. right. left. reflexivity. Qed.
Lemma target_in d t : plain_dir d -> plain_path (t_url t) -> fe_isdir env d = true -> target env d t = in_dir d (t_url t).
Proof. intros D U I. unfold target, resolve. rewrite plain_local by exact U. rewrite I. cbn [open_path]. apply joinpath_in; assumption. Qed.

(** *** Writing *)
Lemma zip_write_ok d strict zipped (cols : list (tcol V)) fs p items fs' k : zip_write sc pv lim d strict zipped cols fs p items = (fs', Ok k) ->
  exists before text, table_write sc pv lim d strict cols before items = (Some text, Ok k) /\ stored zipped fs' p (basename p) text /\ (forall q, ~ In q (touched zipped p) -> fs' q = fs q) /\
    (if zipped then In fs' (zip_states p text fs) else fs' = written p text fs).
Proof.
  unfold zip_write. set (before := match fs p with Some (Plain t) => Some t | _ => None end). destruct (table_write sc pv lim d strict cols before items) as [a r] eqn:E. destruct a as [text|]; [|intros H; injection H as <- ->; exfalso; clear -E].
  2:{ unfold table_write in E. destruct (effective_kw (Some d) kw0); [|discriminate E]. destruct (writer_open lim (Some d) kw0); discriminate E. }
  destruct r as [n|e]; [|discriminate]. intros H. injection H as <- ->. exists before, text. split; [exact E|]. pose proof (zip_path_neq p) as Z. destruct zipped; unfold stored, touched.
  - change (last (zip_states p text fs) fs) with (put (put (written p text fs) (zip_path p) (Some (Archive [(basename p, text)]))) p None). split; [split; [apply put_same|rewrite (put_other _ p) by exact Z; apply put_same]|]. split; [|unfold zip_states; do 3 right; left; reflexivity].
    intros q N. unfold written. rewrite !put_other; [reflexivity|intros ->; apply N; left; reflexivity|intros ->; apply N; right; left; reflexivity|intros ->; apply N; left; reflexivity].
  - split; [apply put_same|]. split; [|reflexivity]. intros q N. unfold written. apply put_other. intros ->. apply N. left. reflexivity.
Qed.
Lemma zip_write_frame d strict zipped (cols : list (tcol V)) fs p items fs' r : zip_write sc pv lim d strict zipped cols fs p items = (fs', r) -> forall q, ~ In q (touched zipped p) -> fs' q = fs q.
Proof.
  destruct r as [k|e]; [intros H; destruct (zip_write_ok _ _ _ _ _ _ _ _ _ H) as (_ & _ & _ & _ & F & _); exact F|].
  unfold zip_write. destruct (table_write sc pv lim d strict cols _ items) as [[text|] [n|e']]; intros H; try discriminate H; injection H as <- <-; intros q N; [|reflexivity].
  unfold written. apply put_other. intros ->. apply N. unfold touched. destruct zipped; left; reflexivity.
Qed.
Lemma write_table_frame g strict zipped fs t p items fs' r : write_table sc env pv lim g strict zipped fs t p items = (fs', r) -> forall q, ~ In q (touched zipped p) -> fs' q = fs q.
Proof. unfold write_table. destruct (creatable env p); [apply zip_write_frame|intros H; injection H as <- _; reflexivity]. Qed.
Lemma write_table_ok g strict zipped fs t p items fs' k : write_table sc env pv lim g strict zipped fs t p items = (fs', Ok k) ->
  creatable env p = true /\ zip_write sc pv lim (dialect_of g t) strict zipped (t_cols t) fs p items = (fs', Ok k).
Proof. unfold write_table. destruct (creatable env p); [auto|]. destruct (effective_kw (Some (dialect_of g t)) kw0); discriminate. Qed.

Definition items_touch g dir zipped (items : list (pystr * list (item V))) (q : pystr) : Prop :=
  exists n rows t, In (n, rows) items /\ named g n t /\ In q (touched zipped (target env dir t)).
Lemma write_tables_frame g dir strict zipped : forall items fs fs' r, write_tables sc env pv lim g dir strict zipped fs items = (fs', r) ->
  forall q, ~ items_touch g dir zipped items q -> fs' q = fs q.
Proof.
  induction items as [|[n rows] items IH]; intros fs fs' r H q N; cbn [write_tables] in H; [injection H as <- _; reflexivity|].
  destruct (dget str_eqb (tables_by_name g) n) as [t|] eqn:E; [|injection H as <- _; reflexivity]. apply named_iff in E.
  assert (F : ~ In q (touched zipped (target env dir t))) by (intros I; apply N; exists n, rows, t; split; [left; reflexivity|split; assumption]).
  destruct (write_table sc env pv lim g strict zipped fs t (target env dir t) rows) as [fs1 r1] eqn:W. pose proof (write_table_frame _ _ _ _ _ _ _ _ _ W q F) as F1.
  destruct r1 as [k|e]; [|injection H as <- _; exact F1]. rewrite <- F1. apply (IH _ _ _ H). intros (n' & rows' & t' & I & R). apply N. exists n', rows', t'. split; [right; exact I|exact R].
Qed.
Lemma write_tables_app g dir strict zipped : forall pre fs post, write_tables sc env pv lim g dir strict zipped fs (pre ++ post) =
  match write_tables sc env pv lim g dir strict zipped fs pre with (fs1, Ok _) => write_tables sc env pv lim g dir strict zipped fs1 post | r => r end.
Proof.
  induction pre as [|[n rows] pre IH]; intros fs post; [reflexivity|]. cbn [app write_tables]. destruct (dget str_eqb (tables_by_name g) n) as [t|]; [|reflexivity].
  destruct (write_table sc env pv lim g strict zipped fs t (target env dir t) rows) as [fs1 [k|e]]; [apply IH|reflexivity].
Qed.
Lemma write_tables_fail g dir strict zipped : forall items fs fs' e, write_tables sc env pv lim g dir strict zipped fs items = (fs', Err e) ->
  exists pre n rows post fs1, items = pre ++ (n, rows) :: post /\ write_tables sc env pv lim g dir strict zipped fs pre = (fs1, Ok tt) /\
    (((forall t, ~ named g n t) /\ e = KeyError /\ fs' = fs1) \/ (exists t, named g n t /\ write_table sc env pv lim g strict zipped fs1 t (target env dir t) rows = (fs', Err e))).
Proof.
  induction items as [|[n rows] items IH]; intros fs fs' e H; cbn [write_tables] in H; [discriminate H|]. destruct (dget str_eqb (tables_by_name g) n) as [t|] eqn:E.
  - destruct (write_table sc env pv lim g strict zipped fs t (target env dir t) rows) as [fs1 [k|e']] eqn:W.
    + destruct (IH _ _ _ H) as (pre & n' & rows' & post & fs2 & -> & Hp & R). exists ((n, rows) :: pre), n', rows', post, fs2. split; [reflexivity|]. split; [|exact R]. cbn [write_tables]. rewrite E, W. exact Hp.
    + injection H as <- <-. exists [], n, rows, items, fs. split; [reflexivity|]. split; [reflexivity|]. right. exists t. split; [apply named_iff; exact E|exact W].
  - injection H as <- <-. exists [], n, rows, items, fs. split; [reflexivity|]. split; [reflexivity|]. left. split; [exact (proj1 (unnamed_iff _ _) E)|auto].
Qed.

(** what one finished table leaves *)
Definition finished g dir strict zipped fs (i : pystr * list (item V)) : Prop :=
  exists t before text k fs0 fs1, named g (fst i) t /\ creatable env (target env dir t) = true /\ table_write sc pv lim (dialect_of g t) strict (t_cols t) before (snd i) = (Some text, Ok k) /\
    stored zipped fs (target env dir t) (basename (target env dir t)) text /\
    (fs1 (target env dir t) = fs (target env dir t) /\ fs1 (zip_path (target env dir t)) = fs (zip_path (target env dir t)) \/ zipped = false) /\ (zipped = true -> In fs1 (zip_states (target env dir t) text fs0)).
Lemma stored_ext zipped fs fs' p name text : (forall q, In q (touched zipped p) -> fs' q = fs q) -> stored zipped fs p name text -> stored zipped fs' p name text.
Proof.
  unfold stored, touched. intros H. destruct zipped.
  - intros [A B]. rewrite (H p), (H (p ++ lit ".zip")); [split; assumption|right; left; reflexivity|left; reflexivity].
  - intros A. rewrite H; [exact A|left; reflexivity].
Qed.
(** the files of different items are different *)
Definition separate g dir zipped (names : list pystr) : Prop :=
  NoDup names /\ forall n n' t t' q, In n names -> In n' names -> named g n t -> named g n' t' -> In q (touched zipped (target env dir t)) -> In q (touched zipped (target env dir t')) -> n = n'.
Lemma write_tables_ok g dir strict zipped : forall items fs fs', write_tables sc env pv lim g dir strict zipped fs items = (fs', Ok tt) -> separate g dir zipped (map fst items) ->
  Forall (finished g dir strict zipped fs') items.
Proof.
  induction items as [|[n rows] items IH]; intros fs fs' H [Nd Sp]; [constructor|]. cbn [write_tables] in H. destruct (dget str_eqb (tables_by_name g) n) as [t|] eqn:E; [|discriminate H].
  destruct (write_table sc env pv lim g strict zipped fs t (target env dir t) rows) as [fs1 [k|e']] eqn:W; [|discriminate H]. cbn [map fst] in Nd, Sp. apply NoDup_cons_iff in Nd. destruct Nd as [Nd1 Nd2]. constructor.
  - apply write_table_ok in W. destruct W as [C W]. apply zip_write_ok in W. destruct W as (before & text & Tw & St & _ & Zs). apply named_iff in E.
    assert (F : forall q, In q (touched zipped (target env dir t)) -> fs' q = fs1 q).
    { intros q I. apply (write_tables_frame _ _ _ _ _ _ _ _ H). intros (n' & rows' & t' & I' & N' & Q). assert (I2 : In n' (map fst items)) by (apply (in_map fst) in I'; exact I').
      assert (X : n = n') by (eapply Sp; [left; reflexivity|right; exact I2|exact E|exact N'|exact I|exact Q]). subst n'. contradiction. }
    exists t, before, text, k, fs, fs1. split; [exact E|]. split; [exact C|]. split; [exact Tw|]. split; [eapply stored_ext; eassumption|]. split; [|intros ->; exact Zs]. destruct zipped; [left|right; reflexivity].
    split; symmetry; apply F; [left|right; left]; reflexivity.
  - apply (IH fs1 fs' H). split; [exact Nd2|]. intros a b ta tb q Ia Ib. apply Sp; right; assumption.
Qed.
Lemma write_tables_succeed g dir strict zipped : forall items fs,
  (forall n rows, In (n, rows) items -> exists t, named g n t /\ creatable env (target env dir t) = true /\ forall before, exists text k, table_write sc pv lim (dialect_of g t) strict (t_cols t) before rows = (Some text, Ok k)) ->
  exists fs', write_tables sc env pv lim g dir strict zipped fs items = (fs', Ok tt).
Proof.
  induction items as [|[n rows] items IH]; intros fs H; [exists fs; reflexivity|]. cbn [write_tables]. destruct (H n rows (or_introl eq_refl)) as (t & N & C & W). apply named_iff in N. rewrite N.
  unfold write_table. rewrite C. unfold zip_write. destruct (W (match fs (target env dir t) with Some (Plain t0) => Some t0 | _ => None end)) as (text & k & ->). apply IH. intros n' rows' I. apply H. right; exact I.
Qed.
Lemma iter_file_ext lim' d lang strict log (cols : list (tcol V)) fs fs' p : fs p = fs' p -> fs (zip_path p) = fs' (zip_path p) ->
  iter_file sc expand lim' d lang strict log cols fs p = iter_file sc expand lim' d lang strict log cols fs' p.
Proof. intros A B. unfold iter_file. rewrite A, B. reflexivity. Qed.
Lemma iter_file_plain lim' d lang strict log (cols : list (tcol V)) fs fs' p p' e : fs p = Some e -> fs' p' = Some e ->
  iter_file sc expand lim' d lang strict log cols fs p = iter_file sc expand lim' d lang strict log cols fs' p'.
Proof. intros A B. unfold iter_file. rewrite A, B. reflexivity. Qed.

(** *** Reading *)
Lemma by_name_nodup g : NoDup (map fst (tables_by_name g)).
Proof.
  unfold tables_by_name. assert (X : forall l (d : list (pystr * ftable V)), NoDup (map fst d) -> NoDup (map fst (dset_all str_eqb d l))).
  { induction l as [|[k x] l IH]; intros d H; [exact H|]. change (dset_all str_eqb d ((k, x) :: l)) with (dset_all str_eqb (dset str_eqb d k x) l). apply IH, dset_keys_nodup, H. }
  apply X. constructor.
Qed.
Lemma by_name_In g n t : In (n, t) (tables_by_name g) <-> named g n t.
Proof. rewrite <- named_iff. split; [apply dget_In, by_name_nodup|apply dget_has]. Qed.
Lemma some_named g t : In t (gr_tables g) -> exists t', named g (t_url t) t'.
Proof.
  intros I. destruct (dget str_eqb (tables_by_name g) (t_url t)) as [t'|] eqn:E; [exists t'; apply named_iff; exact E|]. exfalso. rewrite unnamed_iff in E.
  apply in_split in I. destruct I as (pre & post & Eg). revert pre Eg. assert (K : forall n post pre, (length post <= n)%nat -> gr_tables g = pre ++ t :: post -> False).
  { induction n as [|n IHn]; intros po pre L Eg.
    - destruct po; [|cbn in L; inversion L]. apply (E t). exists pre, []. split; [exact Eg|]. split; [reflexivity|intros t' []].
    - clear IHn L n. assert (W : exists pre1 u post1, t :: po = pre1 ++ u :: post1 /\ t_url u = t_url t /\ forall x, In x post1 -> t_url x <> t_url t).
      { clear. revert t. induction po as [|y po IH] using rev_ind; intros t; [exists [], t, []; repeat split; intros x []|].
        destruct (str_eqb (t_url y) (t_url t)) eqn:Ey.
        - apply str_eqb_eq in Ey. exists (t :: po), y, []. repeat split; [exact Ey|intros x []].
        - apply str_eqb_neq in Ey. destruct (IH t) as (pre1 & u & post1 & Eq & Eu & Hx). exists pre1, u, (post1 ++ [y]). split; [change (t :: po ++ [y]) with ((t :: po) ++ [y]); rewrite Eq, <- app_assoc; reflexivity|].
          split; [exact Eu|]. intros x Ix. apply in_app_or in Ix. destruct Ix as [Ix|[<-|[]]]; [apply Hx; exact Ix|exact Ey]. }
      destruct W as (pre1 & u & post1 & Eq & Eu & Hx). apply (E u). exists (pre ++ pre1), post1. split; [rewrite Eg, Eq, app_assoc; reflexivity|]. split; [exact Eu|exact Hx]. }
  intros pre Eg. exact (K (length post) post pre (le_n _) Eg).
Qed.
End Proofs.
