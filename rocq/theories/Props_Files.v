(** C55: the files of a table group.  Vocabulary: FilesSpec.v, TableSpec.v, ZipSpec.v; last_part: LocateSpec.v. *)
From Verif Require Import PyStr PyCsv Dsv DsvSpec DsvProofs4 Json NatLang Column Schema Datatype Values Table TableSpec TableProofs5 TableProofs6 Zip ZipSpec ZipProofs Locate LocateSpec LocateProofs DbProofs DbReadProofs3 JsonldProofs
  Files FilesSpec FilesProofs FilesProofs2 FilesProofs3 Props_Table Props_Zip.

Lemma NoDup_left {A} (a b : list A) : NoDup (a ++ b) -> NoDup a.
Proof. induction a as [|x a IH]; intros H; [constructor|]. cbn [app] in H. apply NoDup_cons_iff in H. destruct H as [H1 H2]. constructor; [intros K; apply H1; apply in_or_app; left; exact K|apply IH; exact H2]. Qed.

(** Where the data is: in the directory of the metadata file (without @base); a URL stays a URL. *)
Theorem c55_location : forall V (sc : scalars V) expand (env : fenv) lim (g : fgroup V) d m fs t, plain_dir d -> component m -> fe_isdir env d = true -> gr_base g = None -> gr_fname g = Some (in_dir d m) ->
  exists dl, has_dialect g t dl /\
  (plain_path (t_url t) -> table_iter sc expand env lim g fs t = iter_file sc expand lim dl (t_lang t) true false (t_cols t) fs (in_dir d (t_url t))) /\
  (remote (t_url t) -> forall c, fe_get env (t_url t) = Ok c -> table_iter sc expand env lim g fs t = iter_url sc expand lim dl (t_lang t) true false (t_cols t) c).
Proof.
  intros V sc expand env lim g d m fs t D M I B F. exists (dialect_of g t). split; [apply dialect_ok|]. unfold table_iter, base_of. rewrite B, F. unfold resolve. rewrite parent_in by assumption. rewrite I. split.
  - intros U. rewrite (plain_local _ U). rewrite joinpath_in by assumption. reflexivity.
  - intros U c E. apply is_url_iff in U. rewrite U, E. reflexivity.
Qed.
Print Assumptions c55_location.

(** write: each table given has its file next to the metadata file, with the text that Table.write makes; the metadata file has the description; no other file changes. *)
Theorem c55_write : forall V (sc : scalars V) (env : fenv) pv lim (g : fgroup V) d m strict zipped fs items fs',
  plain_group g -> plain_dir d -> fe_isdir env d = true -> component m -> no_clash zipped m (map fst items) ->
  group_write sc env pv lim g strict zipped fs (in_dir d m) items = (fs', Ok tt) ->
  (forall n rows, In (n, rows) items -> exists t text name, named g n t /\ text_of sc pv lim strict g t rows text /\ last_part n name /\ stored zipped fs' (in_dir d n) name text) /\
  (exists j, gr_doc g = Ok j /\ fs' (in_dir d m) = Some (Plain (fe_dumps env j))) /\
  (forall q, q <> in_dir d m -> ~ In q (data_files zipped d (map fst items)) -> fs' q = fs q).
Proof.
  intros V sc env pv lim g d m strict zipped fs items fs' G D I M C H. apply group_write_ok in H; try assumption. destruct H as (fs1 & j & W & J & Cr & ->).
  pose proof (meta_free env g d m G D I M zipped items C) as Mf. split; [|split].
  - intros n rows In_. pose proof (write_tables_ok sc env pv lim g d strict zipped items fs fs1 W (clash_free env g d m G D I zipped _ C)) as F. pose proof (proj1 (Forall_forall _ _) F _ In_) as Fi.
    destruct (finished_stored sc env pv lim g d G D I strict zipped fs1 n rows Fi) as (t & text & name & N & Tx & L & St). exists t, text, name. split; [exact N|]. split; [exact Tx|]. split; [exact L|].
    eapply stored_ext; [|exact St]. intros q Q. apply put_other. intros ->. apply Mf. exists n, rows, t. split; [exact In_|]. split; [exact N|]. rewrite (target_named env g d G D I n t N). exact Q.
  - exists j. split; [exact J|]. apply put_same.
  - intros q Nq Nd. rewrite put_other by exact Nq. apply (write_tables_frame sc env pv lim g d strict zipped items fs fs1 (Ok tt) W). intros T. apply Nd. eapply touch_data; eassumption.
Qed.
Print Assumptions c55_write.

(** write fails: the metadata file is as before, and so is every file but those of the tables up to the one that failed; the tables before that one are complete.
    An unknown table raises KeyError, after the tables before it were written. *)
Theorem c55_write_fails : forall V (sc : scalars V) (env : fenv) pv lim (g : fgroup V) d m strict zipped fs items fs' e,
  plain_group g -> plain_dir d -> fe_isdir env d = true -> component m -> no_clash zipped m (map fst items) ->
  group_write sc env pv lim g strict zipped fs (in_dir d m) items = (fs', Err e) ->
  fs' (in_dir d m) = fs (in_dir d m) /\
  exists done failed rest, items = done ++ failed ++ rest /\
    (forall n rows, In (n, rows) done -> exists t text name, named g n t /\ text_of sc pv lim strict g t rows text /\ last_part n name /\ stored zipped fs' (in_dir d n) name text) /\
    (forall q, ~ In q (data_files zipped d (map fst (done ++ failed))) -> fs' q = fs q) /\
    ((failed = [] /\ rest = [] /\ (gr_doc g = Err e \/ (e = OtherError /\ ~ can_create env (in_dir d m)))) \/
     (exists n rows, failed = [(n, rows)] /\ ((forall t, ~ named g n t) -> e = KeyError))).
Proof.
  intros V sc env pv lim g d m strict zipped fs items fs' e G D I M C H. pose proof (meta_free env g d m G D I M zipped items C) as Mf. unfold group_write in H. rewrite (meta_parent d m D M), (meta_norm d m D M) in H.
  destruct (write_tables sc env pv lim g d strict zipped fs items) as [fs1 [[]|e']] eqn:W.
  - unfold to_file in H. assert (X : fs' = fs1 /\ (gr_doc g = Err e \/ (e = OtherError /\ creatable env (in_dir d m) = false))).
    { destruct (gr_doc g) as [j|e2]; [|injection H as -> ->; auto]. destruct (creatable env (in_dir d m)); [discriminate H|]. injection H as -> <-. auto. }
    clear H. destruct X as [-> X]. split; [apply (write_tables_frame sc env pv lim g d strict zipped items fs fs1 (Ok tt) W); exact Mf|]. exists items, [], []. split; [rewrite app_nil_r; reflexivity|]. split; [|split].
    + intros n rows In_. pose proof (write_tables_ok sc env pv lim g d strict zipped items fs fs1 W (clash_free env g d m G D I zipped _ C)) as F.
      exact (finished_stored sc env pv lim g d G D I strict zipped fs1 n rows (proj1 (Forall_forall _ _) F _ In_)).
    + intros q Nq. rewrite app_nil_r in Nq. apply (write_tables_frame sc env pv lim g d strict zipped items fs fs1 (Ok tt) W). intros T. apply Nq. eapply touch_data; eassumption.
    + left. split; [reflexivity|]. split; [reflexivity|]. destruct X as [X|[X Y]]; [left; exact X|right; split; [exact X|]]. intros K. apply creatable_ok in K. congruence.
  - injection H as -> ->. split; [apply (write_tables_frame sc env pv lim g d strict zipped items fs fs' (Err e) W); exact Mf|].
    pose proof (write_tables_fail sc env pv lim g d strict zipped items fs fs' e W) as (pre & n & rows & post & fs2 & -> & Wp & Cs). exists pre, [(n, rows)], post. split; [reflexivity|].
    destruct C as (Nd & Nm & Z). assert (C : no_clash zipped m (map fst (pre ++ [(n, rows)]))).
    { rewrite map_app in *. cbn [map fst] in *. change (n :: map fst post) with ([n] ++ map fst post) in *. rewrite app_assoc in *. split; [apply NoDup_left in Nd; exact Nd|]. split; [intros K; apply Nm; apply in_or_app; left; exact K|].
      intros Ez x Ix Iz. apply (Z Ez x); [apply in_or_app; left; exact Ix|]. destruct Iz as [Iz|Iz]; [left; exact Iz|right; apply in_or_app; left; exact Iz]. }
    assert (Fr : forall q, ~ (exists t, named g n t /\ In q (touched zipped (target env d t))) -> fs' q = fs2 q).
    { intros q Nq. destruct Cs as [(_ & _ & ->)|(t & N & Wt)]; [reflexivity|]. apply (write_table_frame sc env pv lim g strict zipped fs2 t _ rows fs' (Err e) Wt). intros K. apply Nq. exists t. auto. }
    split; [|split].
    + intros n' rows' In_. assert (Cp : no_clash zipped m (map fst pre)).
      { destruct C as (A & B & E). rewrite map_app in *. split; [apply NoDup_left in A; exact A|]. split; [intros K; apply B; apply in_or_app; left; exact K|]. intros Ez x Ix Iz. apply (E Ez x); [apply in_or_app; left; exact Ix|]. destruct Iz as [Iz|Iz]; [left; exact Iz|right; apply in_or_app; left; exact Iz]. }
      pose proof (write_tables_ok sc env pv lim g d strict zipped pre fs fs2 Wp (clash_free env g d m G D I zipped _ Cp)) as F.
      destruct (finished_stored sc env pv lim g d G D I strict zipped fs2 n' rows' (proj1 (Forall_forall _ _) F _ In_)) as (t & text & name & N & Tx & L & St). exists t, text, name. split; [exact N|]. split; [exact Tx|]. split; [exact L|].
      eapply stored_ext; [|exact St]. intros q Q. apply Fr. intros (t2 & N2 & Q2). destruct (clash_free env g d m G D I zipped _ C) as [A B]. rewrite <- (target_named env g d G D I n' t N) in Q.
      assert (X : n' = n).
      { eapply B; [| |exact N|exact N2|exact Q|exact Q2]; rewrite map_app; apply in_or_app; [left; apply (in_map fst) in In_; exact In_|right; left; reflexivity]. }
      subst n'. rewrite map_app in A. apply NoDup_remove_2 in A. apply A. rewrite app_nil_r. apply (in_map fst) in In_. exact In_.
    + intros q Nq. transitivity (fs2 q).
      * apply Fr. intros (t & N & Q). apply Nq. rewrite (target_named env g d G D I n t N) in Q. eapply touched_data; [|exact Q]. rewrite map_app. apply in_or_app. right. left. reflexivity.
      * apply (write_tables_frame sc env pv lim g d strict zipped pre fs fs2 (Ok tt) Wp). intros (n' & r' & t & Ix & N & Q). apply Nq. rewrite (target_named env g d G D I n' t N) in Q. eapply touched_data; [|exact Q]. rewrite map_app. apply in_or_app. left. apply (in_map fst) in Ix. exact Ix.
    + right. exists n, rows. split; [reflexivity|]. intros Nt. destruct Cs as [(_ & -> & _)|(t & N & _)]; [reflexivity|]. destruct (Nt t N).
Qed.
Print Assumptions c55_write_fails.

(** write is interrupted: as long as the metadata file was not touched ... once it is, all data files are complete. *)
Theorem c55_interrupted : forall V (sc : scalars V) (env : fenv) pv lim (g : fgroup V) d m strict zipped fs items s,
  plain_group g -> plain_dir d -> fe_isdir env d = true -> component m -> no_clash zipped m (map fst items) ->
  interrupted sc env pv lim g strict zipped fs (in_dir d m) items s ->
  s (in_dir d m) = fs (in_dir d m) \/
  (forall n rows, In (n, rows) items -> exists t text name, named g n t /\ text_of sc pv lim strict g t rows text /\ last_part n name /\ stored zipped s (in_dir d n) name text).
Proof.
  intros V sc env pv lim g d m strict zipped fs items s G D I M C H. pose proof (meta_free env g d m G D I M zipped items C) as Mf. destruct H as [pre n rows post t fs1 E W N F|fs1 W F].
  - left. rewrite (meta_parent d m D M) in *. apply named_iff in N. rewrite F.
    + apply (write_tables_frame sc env pv lim g d strict zipped pre fs fs1 (Ok tt) W). intros (n' & r' & t' & Ix & R). apply Mf. exists n', r', t'. split; [|exact R]. rewrite E. apply in_or_app. left; exact Ix.
    + intros Q. apply Mf. exists n, rows, t. split; [rewrite E; apply in_or_app; right; left; reflexivity|]. split; assumption.
  - right. rewrite (meta_parent d m D M), (meta_norm d m D M) in *. intros n rows In_. pose proof (write_tables_ok sc env pv lim g d strict zipped items fs fs1 W (clash_free env g d m G D I zipped _ C)) as Fi.
    destruct (finished_stored sc env pv lim g d G D I strict zipped fs1 n rows (proj1 (Forall_forall _ _) Fi _ In_)) as (t & text & name & N & Tx & L & St). exists t, text, name. split; [exact N|]. split; [exact Tx|]. split; [exact L|].
    eapply stored_ext; [|exact St]. intros q Q. apply F. intros ->. apply Mf. exists n, rows, t. split; [exact In_|]. split; [exact N|]. rewrite (target_named env g d G D I n t N). exact Q.
Qed.
Print Assumptions c55_interrupted.

(** read: for each url, the rows of the (last) table with this url, read from its file next to the metadata; an exception if some table cannot be read. *)
Theorem c55_read : forall V (sc : scalars V) expand (env : fenv) lim (g : fgroup V) d m fs,
  plain_group g -> plain_dir d -> fe_isdir env d = true -> component m -> gr_base g = None -> gr_fname g = Some (in_dir d m) ->
  (forall D, group_read sc expand env lim g fs = Ok D ->
     NoDup (map fst D) /\ (forall n, In n (map fst D) <-> exists t, In t (gr_tables g) /\ t_url t = n) /\ (NoDup (map t_url (gr_tables g)) -> map fst D = map t_url (gr_tables g)) /\
     forall n rows, In (n, rows) D -> exists t dl, named g n t /\ has_dialect g t dl /\
       let o := iter_file sc expand lim dl (t_lang t) true false (t_cols t) fs (in_dir d n) in io_end o = None /\ rows = map snd (io_rows o)) /\
  ((forall n t dl, named g n t -> has_dialect g t dl -> io_end (iter_file sc expand lim dl (t_lang t) true false (t_cols t) fs (in_dir d n)) = None) -> exists D, group_read sc expand env lim g fs = Ok D).
Proof.
  intros V sc expand env lim g d m fs G D I M B F. assert (At : forall n t, named g n t -> table_iter sc expand env lim g fs t = iter_file sc expand lim (dialect_of g t) (t_lang t) true false (t_cols t) fs (in_dir d n)).
  { intros n t N. apply named_url in N. destruct N as [<- Ix]. eapply table_iter_at; [exact G|exact D|exact I|exact M|exact Ix|exact B|exact F|reflexivity]. }
  split.
  - intros Ds H. apply mapM_Ok_inv in H. assert (K : map fst Ds = map fst (tables_by_name g)).
    { clear -H. induction H as [|[n t] [n' rows] l l' E H IH]; [reflexivity|]. cbn [map fst snd] in *. rewrite IH. f_equal. destruct (all_rows (table_iter sc expand env lim g fs t)); [|discriminate E]. apply Ok_inj in E. congruence. }
    assert (Mem : forall n, In n (map fst (tables_by_name g)) <-> exists t, In t (gr_tables g) /\ t_url t = n).
    { intros n. split.
      - intros Ix. apply in_map_iff in Ix. destruct Ix as ([n' t] & <- & Ix). apply by_name_In in Ix. apply named_url in Ix. destruct Ix as [E Ix]. exists t. auto.
      - intros (t & Ix & <-). destruct (some_named g t Ix) as (t' & N). apply by_name_In in N. apply (in_map fst) in N. exact N. }
    split; [rewrite K; apply by_name_nodup|]. split; [rewrite K; exact Mem|]. split.
    + intros Nd. rewrite K. unfold tables_by_name. rewrite (dset_all_new str_eqb str_eqb_eq).
      * cbn [app]. rewrite map_map. reflexivity.
      * rewrite map_map. cbn [app map fst]. exact Nd.
    + intros n rows Ix. assert (X : exists kt, In kt (tables_by_name g) /\ (rows' <- all_rows (table_iter sc expand env lim g fs (snd kt)) ;; Ok (fst kt, rows')) = Ok (n, rows)).
      { clear -H Ix. induction H as [|kt y l l' E H IH]; [destruct Ix|]. destruct Ix as [->|Ix]; [exists kt; split; [left; reflexivity|exact E]|]. destruct (IH Ix) as (kt' & A & C). exists kt'. split; [right; exact A|exact C]. }
      destruct X as ([n' t] & Ik & E). cbn [fst snd] in E. apply by_name_In in Ik. rewrite (At n' t Ik) in E. exists t, (dialect_of g t). unfold all_rows in E.
      destruct (io_end (iter_file sc expand lim (dialect_of g t) (t_lang t) true false (t_cols t) fs (in_dir d n'))) eqn:Ee; [discriminate E|]. cbn [bind] in E. injection E as -> <-.
      split; [exact Ik|]. split; [apply dialect_ok|]. cbn zeta. split; [exact Ee|reflexivity].
  - intros H. apply mapM_ok_all. intros [n t] Ix. cbn [fst snd]. apply by_name_In in Ix. rewrite (At n t Ix). unfold all_rows. rewrite (H n t (dialect_of g t) Ix (dialect_ok g t)). cbn [bind]. eexists. reflexivity.
Qed.
Print Assumptions c55_read.

(** Round trip: write all tables of a group (zipped or not), load the metadata file, read: the rows are back. *)
Theorem c55_round_trip : forall V (sc : scalars V) expand (env : fenv) pv lim (load : json -> res (fgroup V)) (g g0 : fgroup V) j d m strict zipped fs (items : list (pystr * list (dict V))),
  plain_group g -> plain_dir d -> fe_isdir env d = true -> component m -> no_clash zipped m (map fst items) -> gr_base g = None -> expands expand ->
  (forall t, In t (gr_tables g) -> In (t_url t) (map fst items)) ->
  (forall n rows, In (n, rows) items -> exists t dl, named g n t /\ can_create env (in_dir d n) /\ has_dialect g t dl /\ storable sc pv lim zipped dl (t_cols t) rows) ->
  can_create env (in_dir d m) -> gr_doc g = Ok j -> fe_loads env (fe_dumps env j) = Some j -> load j = Ok g0 -> same_description g g0 ->
  exists fs' g' D, group_write sc env pv lim g strict zipped fs (in_dir d m) (map (fun i => (fst i, map IDict (snd i))) items) = (fs', Ok tt) /\
    from_file env load fs' (in_dir d m) = Ok g' /\ group_read sc expand env lim g' fs' = Ok D /\
    NoDup (map fst D) /\ (forall n, In n (map fst D) <-> In n (map fst items)) /\
    forall n rows, In (n, rows) items -> exists t ds, named g n t /\ In (n, ds) D /\ Forall2 (same_values (t_cols t)) ds rows.
Proof.
  intros V sc expand env pv lim load g g0 j d m strict zipped fs items G D I M C B X All Ok_ Cm J Jl Lo (St & Sd & Sb & Sx & Sj).
  set (its := map (fun i : pystr * list (dict V) => (fst i, map (@IDict V) (snd i))) items). assert (Ei : map fst its = map fst items) by (unfold its; rewrite map_map; reflexivity).
  destruct (write_tables_succeed sc env pv lim g d strict zipped its fs) as (fs1 & W).
  { intros n rows Ix. unfold its in Ix. apply in_map_iff in Ix. destruct Ix as ([n' ds] & E & Ix). cbn [fst snd] in E. injection E as -> <-. destruct (Ok_ n ds Ix) as (t & dl & N & Cc & Hd & S). exists t. split; [exact N|].
    rewrite (target_named env g d G D I n t N). split; [apply creatable_ok; exact Cc|]. intros before. apply dialect_unique in Hd. subst dl.
    destruct S as ((dl & q & term & Sa & Ql) & Dq & Sk & Ke & _ & Rf & Dh & Vr & Ci & Sv & Cw).
    destruct (write_read sc expand pv lim (dialect_of g t) dl q term [] strict false (t_cols t) before ds Sa Dq Sk Ql Ke Rf Dh Vr X Ci Sv) as (text & Wt & _).
    { intros rows HF. destruct (Cw rows HF) as (A1 & A2 & _). auto. }
    exists text. eexists. exact Wt. }
  assert (C' : no_clash zipped m (map fst its)) by (rewrite Ei; exact C). pose proof (write_tables_ok sc env pv lim g d strict zipped its fs fs1 W (clash_free env g d m G D I zipped _ C')) as Fin.
  pose proof (meta_free env g d m G D I M zipped its C') as Mf. set (fs' := Zip.put fs1 (in_dir d m) (Some (Plain (fe_dumps env j)))). set (g' := with_fname g0 (in_dir d m)).
  assert (G' : plain_group g') by (intros t; unfold g'; cbn [with_fname gr_tables]; rewrite St; apply G). assert (Nm : forall n t, named g' n t <-> named g n t) by (intros n t; unfold named, g'; cbn [with_fname gr_tables]; rewrite St; reflexivity).
  assert (Dl : forall t, dialect_of g' t = dialect_of g t) by (intros t; unfold dialect_of, g'; cbn [with_fname gr_dialect]; rewrite Sd; reflexivity).
  assert (Rd : forall n rows t, In (n, rows) items -> named g n t -> let o := iter_file sc expand lim (dialect_of g t) (t_lang t) true false (t_cols t) fs' (in_dir d n) in io_end o = None /\ Forall2 (same_values (t_cols t)) (map snd (io_rows o)) rows).
  { intros n rows t Ix N. assert (Ix' : In (n, map (@IDict V) rows) its) by (unfold its; apply in_map_iff; exists (n, rows); split; [reflexivity|exact Ix]).
    destruct (proj1 (Forall_forall _ _) Fin _ Ix') as (t2 & before & text & k & fs0 & fs2 & N2 & Cc & Tw & Sto & Ag & Zs). cbn [fst snd] in *.
    assert (t2 = t) by (apply named_iff in N; apply named_iff in N2; congruence). subst t2. rewrite (target_named env g d G D I n t N) in *.
    destruct (Ok_ n rows Ix) as (t3 & dl0 & N3 & _ & Hd & S). assert (t3 = t) by (apply named_iff in N; apply named_iff in N3; congruence). subst t3. apply dialect_unique in Hd. subst dl0.
    destruct S as ((dl & q & term & Sa & Ql) & Dq & Sk & Ke & En & Rf & Dh & Vr & Ci & Sv & Cw).
    destruct (write_read sc expand pv lim (dialect_of g t) dl q term (t_lang t) strict false (t_cols t) before rows Sa Dq Sk Ql Ke Rf Dh Vr X Ci Sv) as (text' & Wt & Rr).
    { intros rws HF. destruct (Cw rws HF) as (A1 & A2 & _). auto. }
    rewrite Tw in Wt. injection Wt as -> _. cbn zeta in Rr. destruct Rr as (R1 & _ & R3).
    assert (It : iter_file sc expand lim (dialect_of g t) (t_lang t) true false (t_cols t) fs' (in_dir d n) = iterdicts sc expand lim (dialect_of g t) (t_lang t) true false (t_cols t) text').
    { assert (Ot : forall q0, In q0 (touched zipped (in_dir d n)) -> fs' q0 = fs1 q0).
      { intros q0 Q0. apply put_other. intros ->. apply Mf. exists n, (map (@IDict V) rows), t. split; [exact Ix'|]. split; [exact N|]. rewrite (target_named env g d G D I n t N). exact Q0. }
      destruct zipped.
      - assert (A : iter_file sc expand lim (dialect_of g t) (t_lang t) true false (t_cols t) fs' (in_dir d n) = iter_file sc expand lim (dialect_of g t) (t_lang t) true false (t_cols t) fs2 (in_dir d n)).
        { destruct Ag as [[A1 A2]|A]; [|discriminate A]. apply iter_file_ext; [rewrite A1|rewrite A2]; apply Ot; [left|right; left]; reflexivity. }
        rewrite A. eapply c52_write; [exact Sa|exact Dq|exact Sk|exact Ql|apply En; reflexivity|exact Tw| |apply Zs; reflexivity].
        intros rws HF. destruct (Cw rws HF) as (A1 & A2 & A3). auto.
      - unfold iter_file. rewrite Ot by (left; reflexivity). unfold stored in Sto. rewrite Sto. reflexivity. }
    cbn zeta. rewrite It. split; [exact R1|]. clear -R3. induction R3 as [|y kvs l l' H _ IH]; constructor; [exact H|exact IH]. }
  assert (Gw : group_write sc env pv lim g strict zipped fs (in_dir d m) its = (fs', Ok tt)).
  { unfold group_write. rewrite (meta_parent d m D M), (meta_norm d m D M), W. unfold to_file. rewrite J, (creatable_ok env _ Cm). reflexivity. }
  assert (Ff : from_file env load fs' (in_dir d m) = Ok g').
  { unfold from_file. rewrite (meta_norm d m D M). unfold fs'. rewrite put_same, Jl, Lo. reflexivity. }
  assert (B' : gr_base g' = None) by (unfold g'; cbn [with_fname gr_base]; congruence).
  destruct (c55_read V sc expand env lim g' d m fs' G' D I M B' eq_refl) as [R1 R2].
  destruct R2 as (Ds & Rg).
  { intros n t dl N Hd. apply dialect_unique in Hd. subst dl. rewrite Dl. apply Nm in N. pose proof (named_url g n t N) as [Eu It]. pose proof (All t It) as Ia. rewrite Eu in Ia. apply in_map_iff in Ia. destruct Ia as ([n' rows] & <- & Ir). cbn [fst] in *. exact (proj1 (Rd n' rows t Ir N)). }
  exists fs', g', Ds. split; [exact Gw|]. split; [exact Ff|]. split; [exact Rg|]. destruct (R1 Ds Rg) as (Nd & Mem & _ & Rows). split; [exact Nd|]. split.
  - intros n. rewrite Mem. unfold g'. cbn [with_fname gr_tables]. rewrite St. split.
    + intros (t & It & <-). apply All; exact It.
    + intros In_. apply in_map_iff in In_. destruct In_ as ([n' rows] & <- & Ir). destruct (Ok_ n' rows Ir) as (t & _ & N & _). apply named_url in N. exists t. destruct N. auto.
  - intros n rows Ir. destruct (Ok_ n rows Ir) as (t & _ & N & _). assert (Ik : In n (map fst Ds)).
    { apply Mem. unfold g'. cbn [with_fname gr_tables]. rewrite St. apply named_url in N. exists t. destruct N. auto. }
    apply in_map_iff in Ik. destruct Ik as ([n' ds] & En & Id). cbn [fst] in En. subst n'. exists t, ds. split; [exact N|]. split; [exact Id|].
    destruct (Rows n ds Id) as (t2 & dl & N2 & Hd & Io). apply Nm in N2. assert (t2 = t) by (apply named_iff in N; apply named_iff in N2; congruence). subst t2. apply dialect_unique in Hd. subst dl. rewrite Dl in Io. cbn zeta in Io. destruct Io as [_ ->].
    exact (proj2 (Rd n rows t Ir N)).
Qed.
Print Assumptions c55_round_trip.

Lemma mapM_ext_in {A B} (f h : A -> res B) l : (forall a, In a l -> f a = h a) -> mapM f l = mapM h l.
Proof. induction l as [|a l IH]; intros H; [reflexivity|]. cbn [mapM]. rewrite (H a (or_introl eq_refl)), IH; [reflexivity|]. intros x Ix. apply H. right; exact Ix. Qed.
(** copy: the data files and the metadata are in the new directory, nothing else changes, and reading from there gives what reading gave before. *)
Lemma copy_tables_ok {V} (env : fenv) (g : fgroup V) d m d' : plain_group g -> plain_dir d -> fe_isdir env d = true -> component m -> gr_base g = None -> gr_fname g = Some (in_dir d m) ->
  plain_dir d' -> fe_isdir env d' = true -> forall (ts : list (ftable V)) fs, (forall t, In t ts -> In t (gr_tables g)) -> NoDup (map t_url ts) ->
  (forall t, In t ts -> can_create env (in_dir d' (t_url t)) /\ fs (in_dir d (t_url t)) <> None) -> (forall t t', In t ts -> In t' ts -> in_dir d (t_url t) <> in_dir d' (t_url t')) ->
  exists fs', copy_tables env g d' fs ts = (fs', Ok tt) /\ (forall t, In t ts -> fs' (in_dir d' (t_url t)) = fs (in_dir d (t_url t))) /\ (forall q, ~ In q (map (fun t => in_dir d' (t_url t)) ts) -> fs' q = fs q).
Proof.
  intros G D I M B F D' I'. induction ts as [|t ts IH]; intros fs Sub Nd Can Dis; [exists fs; repeat split; intros t []|]. cbn [copy_tables map] in *. apply NoDup_cons_iff in Nd. destruct Nd as [Nd1 Nd2].
  pose proof (G t (Sub t (or_introl eq_refl))) as U. assert (S : open_path (resolve env (base_of env g (gr_ctx g)) (t_url t)) = in_dir d (t_url t)).
  { unfold base_of. rewrite B, F. unfold resolve. rewrite (plain_local _ U), parent_in by assumption. rewrite I. cbn [open_path]. apply joinpath_in; assumption. }
  rewrite S, (target_in env d' t D' U I'). destruct (Can t (or_introl eq_refl)) as [C Ex]. unfold copy_file. pose proof C as (_ & _ & _ & _ & _ & _ & Nodir). rewrite Nodir. destruct (fs (in_dir d (t_url t))) as [e|] eqn:Es; [|contradiction].
  rewrite (str_eqb_iff_false (in_dir d (t_url t)) (in_dir d' (t_url t))) by (apply Dis; left; reflexivity). rewrite (creatable_ok env _ C). cbn [orb negb].
  destruct (IH (Zip.put fs (in_dir d' (t_url t)) (Some e))) as (fs' & Cp & Cd & Fr).
  - intros x Ix. apply Sub. right; exact Ix.
  - exact Nd2.
  - intros x Ix. split; [apply Can; right; exact Ix|]. rewrite put_other; [apply Can; right; exact Ix|]. apply Dis; [right; exact Ix|left; reflexivity].
  - intros x y Ix Iy. apply Dis; right; assumption.
  - exists fs'. split; [exact Cp|]. split.
    + intros x [<-|Ix].
      * rewrite Fr, put_same; [symmetry; exact Es|]. intros K. apply in_map_iff in K. destruct K as (y & Ey & Iy). apply (in_dir_inj d') in Ey; [|exact D'|apply G, Sub; right; exact Iy|exact U]. apply Nd1. rewrite <- Ey. apply in_map. exact Iy.
      * rewrite (Cd x Ix). apply put_other. apply Dis; [right; exact Ix|left; reflexivity].
    + intros q Nq. rewrite Fr by (intros K; apply Nq; right; exact K). apply put_other. intros ->. apply Nq. left. reflexivity.
Qed.
Theorem c55_copy : forall V (sc : scalars V) expand (env : fenv) lim (g : fgroup V) j d m d' fs,
  plain_group g -> plain_dir d -> fe_isdir env d = true -> component m -> gr_base g = None -> gr_fname g = Some (in_dir d m) ->
  plain_dir d' -> fe_isdir env d' = true -> NoDup (map t_url (gr_tables g)) -> ~ In m (map t_url (gr_tables g)) -> gr_doc g = Ok j ->
  (forall t, In t (gr_tables g) -> can_create env (in_dir d' (t_url t)) /\ fs (in_dir d (t_url t)) <> None) -> can_create env (in_dir d' m) ->
  (forall t t', In t (gr_tables g) -> In t' (gr_tables g) -> in_dir d (t_url t) <> in_dir d' (t_url t')) ->
  exists fs' g', group_copy env g fs d' = (fs', g', Ok tt) /\ same_description g g' /\ gr_fname g' = Some (in_dir d' m) /\
    (forall t, In t (gr_tables g) -> fs' (in_dir d' (t_url t)) = fs (in_dir d (t_url t))) /\ fs' (in_dir d' m) = Some (Plain (fe_dumps env j)) /\
    (forall q, q <> in_dir d' m -> ~ In q (map (fun t => in_dir d' (t_url t)) (gr_tables g)) -> fs' q = fs q) /\
    group_read sc expand env lim g' fs' = group_read sc expand env lim g fs.
Proof.
  intros V sc expand env lim g j d m d' fs G D I M B F D' I' Nd Nm J Can Cm Dis. destruct (copy_tables_ok env g d m d' G D I M B F D' I' (gr_tables g) fs (fun t H => H) Nd Can Dis) as (fs1 & Cp & Cd & Fr).
  unfold group_copy. rewrite (norm_dir d' D'), Cp, F. rewrite (name_in d m D M), (joinpath_in d' m D' (plain_one m M)). unfold to_file. rewrite J, (creatable_ok env _ Cm). cbn [fst snd].
  set (fs' := Zip.put fs1 (in_dir d' m) (Some (Plain (fe_dumps env j)))). set (g' := with_fname g (in_dir d' m)). exists fs', g'. split; [reflexivity|]. split; [repeat split|]. split; [reflexivity|].
  assert (Cd' : forall t, In t (gr_tables g) -> fs' (in_dir d' (t_url t)) = fs (in_dir d (t_url t))).
  { intros t It. rewrite <- (Cd t It). apply put_other. intros E. apply (in_dir_inj d') in E; [|exact D'|apply G; exact It|apply plain_one; exact M]. apply Nm. rewrite <- E. apply in_map. exact It. }
  split; [exact Cd'|]. split; [apply put_same|]. split; [intros q Nq Nt; unfold fs'; rewrite put_other by exact Nq; apply Fr; exact Nt|].
  unfold group_read. change (tables_by_name g') with (tables_by_name g). apply mapM_ext_in. intros [n t] Ix. cbn [fst snd]. apply by_name_In in Ix. apply named_url in Ix. destruct Ix as [Eu It].
  rewrite (table_iter_at sc expand env lim g' d' m G D' I' M fs' t (in_dir d' m) It B eq_refl eq_refl), (table_iter_at sc expand env lim g d m G D I M fs t (in_dir d m) It B F eq_refl).
  change (dialect_of g' t) with (dialect_of g t). destruct (Can t It) as [_ Ex]. destruct (fs (in_dir d (t_url t))) as [e|] eqn:Es; [|contradiction]. erewrite iter_file_plain; [reflexivity|rewrite (Cd' t It); exact Es|exact Es].
Qed.
Print Assumptions c55_copy.

(** copy fails if a data file is missing: the metadata is not written and the group keeps its file name. *)
Theorem c55_copy_missing : forall V (env : fenv) (g : fgroup V) d m d' fs,
  plain_group g -> plain_dir d -> fe_isdir env d = true -> component m -> gr_base g = None -> gr_fname g = Some (in_dir d m) ->
  plain_dir d' -> fe_isdir env d' = true -> ~ In m (map t_url (gr_tables g)) -> (forall t, In t (gr_tables g) -> can_create env (in_dir d' (t_url t))) ->
  (forall t t', In t (gr_tables g) -> In t' (gr_tables g) -> in_dir d (t_url t) <> in_dir d' (t_url t')) ->
  (exists t, In t (gr_tables g) /\ fs (in_dir d (t_url t)) = None) ->
  exists fs', group_copy env g fs d' = (fs', g, Err OtherError) /\ (forall q, ~ In q (map (fun t => in_dir d' (t_url t)) (gr_tables g)) -> fs' q = fs q).
Proof.
  intros V env g d m d' fs G D I M B F D' I' Nm Can Dis Ex. unfold group_copy. rewrite (norm_dir d' D').
  assert (X : forall (ts : list (ftable V)) fs0, (forall t, In t ts -> In t (gr_tables g)) -> (exists t, In t ts /\ fs0 (in_dir d (t_url t)) = None) ->
    exists fs', copy_tables env g d' fs0 ts = (fs', Err OtherError) /\ (forall q, ~ In q (map (fun t => in_dir d' (t_url t)) (gr_tables g)) -> fs' q = fs0 q)).
  { induction ts as [|t ts IH]; intros fs0 Sub (t0 & It0 & E0); [destruct It0|]. cbn [copy_tables]. pose proof (Sub t (or_introl eq_refl)) as It. pose proof (G t It) as U.
    assert (S : open_path (resolve env (base_of env g (gr_ctx g)) (t_url t)) = in_dir d (t_url t)).
    { unfold base_of. rewrite B, F. unfold resolve. rewrite (plain_local _ U), parent_in by assumption. rewrite I. cbn [open_path]. apply joinpath_in; assumption. }
    rewrite S, (target_in env d' t D' U I'). pose proof (Can t It) as C. unfold copy_file. pose proof C as (_ & _ & _ & _ & _ & _ & Nodir). rewrite Nodir.
    destruct (fs0 (in_dir d (t_url t))) as [e|] eqn:Es; [|exists fs0; split; [reflexivity|intros q _; reflexivity]].
    rewrite (str_eqb_iff_false (in_dir d (t_url t)) (in_dir d' (t_url t))) by (apply Dis; exact It). rewrite (creatable_ok env _ C). cbn [orb negb].
    destruct It0 as [<-|It0]; [congruence|]. destruct (IH (Zip.put fs0 (in_dir d' (t_url t)) (Some e))) as (fs' & Cp & Fr).
    - intros x Ix. apply Sub. right; exact Ix.
    - exists t0. split; [exact It0|]. rewrite put_other; [exact E0|]. apply Dis; [apply Sub; right; exact It0|exact It].
    - exists fs'. split; [exact Cp|]. intros q Nq. rewrite (Fr q Nq). apply put_other. intros ->. apply Nq. apply in_map_iff. exists t. split; [reflexivity|exact It]. }
  destruct (X (gr_tables g) fs (fun t H => H) Ex) as (fs' & -> & Fr). exists fs'. split; [reflexivity|exact Fr].
Qed.
Print Assumptions c55_copy_missing.

(** An example: two tables in directory d *)
Definition env0 : fenv := {| fe_isdir := fun p => str_mem p [lit "."; lit "d"; lit "e"]; fe_join := fun b s => b ++ s; fe_get := fun _ => Err OtherError; fe_dumps := fun _ => lit "{...}"; fe_loads := fun _ => Some (JObj []) |}.
Definition tab (u : pystr) (cols : list (tcol value)) : ftable value := {| t_url := u; t_dialect := None; t_lang := lit "und"; t_cols := cols; t_ctx := None |}.
Definition g0 (base fname : option pystr) (ts : list (ftable value)) : fgroup value := {| gr_tables := ts; gr_dialect := Some pd; gr_base := base; gr_ctx := None; gr_fname := fname; gr_doc := Ok (JObj []) |}.
Definition g1 := g0 None (Some (lit "d/md.json")) [tab (lit "t.csv") cols0; tab (lit "u.csv") (tcols [col_a])].
Definition itemsA : list (dict value) := [[(lit "a", vs "z")]].
Definition its1 : list (pystr * list (dict value)) := [(lit "u.csv", itemsA); (lit "t.csv", items0)].
Definition idicts (l : list (pystr * list (dict value))) := map (fun i => (fst i, map (@IDict value) (snd i))) l.
Lemma comp_lit s : component s <-> s <> [] /\ s <> lit "." /\ s <> lit ".." /\ ~ In 47 s. Proof. reflexivity. Qed.
Ltac comp := split; [discriminate|split; [discriminate|split; [discriminate|vm_compute; intuition discriminate]]].
Lemma dir_d s : component s -> plain_dir s. Proof. intros H. exists [s]. split; [constructor; [exact H|constructor]|right; reflexivity]. Qed.
Lemma create_in s n : (s = lit "d" \/ s = lit "e") -> component n -> fe_isdir env0 (in_dir s n) = false -> can_create env0 (in_dir s n).
Proof. intros [->| ->] C E; [exists (lit "d"), n|exists (lit "e"), n]; (split; [apply dir_d; comp|split; [exact C|split; [reflexivity|split; [reflexivity|exact E]]]]). Qed.
Lemma colA : tcols [col_a] = [hd (anon_col 0) (tcols [col_a])]. Proof. reflexivity. Qed.
Lemma storable0 zipped : storable sc0 py_modern 131072 zipped pd cols0 items0.
Proof.
  destruct c27_nonvacuous as (A & B & C & E & H & _). destruct cols0_ok as (_ & Rf & _ & Dh & _ & Ke & _). split; [exists 44, 34, [CR; LF]; split; [exact A|right; reflexivity]|]. split; [reflexivity|]. split; [reflexivity|]. split; [exact Ke|]. split; [discriminate|].
  split; [exact Rf|]. split; [exact Dh|]. split; [exact B|]. split; [exact C|]. split; [exact E|]. intros rows HF. destruct (H rows HF) as [H1 H2]. split; [exact H1|]. split; [exact H2|]. intros _.
  assert (R : rows = [[CStr (lit "x,y"); CStr (lit "1")]; [CStr []; CStr (lit "-20")]]).
  { apply Forall2_nth in HF. destruct HF as [F1 F2]. destruct rows as [|r1 [|r2 [|]]]; try discriminate.
    destruct (F2 0%nat _ eq_refl) as (b & X & Y). cbn in X. injection X as <-. apply item_row_iff in Y. vm_compute in Y. injection Y as <-.
    destruct (F2 1%nat _ eq_refl) as (b & X & Y). cbn in X. injection X as <-. apply item_row_iff in Y. vm_compute in Y. injection Y as <-. reflexivity. }
  rewrite R. intros row cell [<-|[<-|[<-|[]]]] [<-|[<-|[]]] I; vm_compute in I; repeat (destruct I as [I|I]; [discriminate I|]); exact I.
Qed.
Lemma storableA zipped : storable sc0 py_modern 131072 zipped pd (tcols [col_a]) itemsA.
Proof.
  split; [exists 44, 34, [CR; LF]; split; [apply DsvExamples.plain_dialect_sane|right; reflexivity]|]. split; [reflexivity|]. split; [reflexivity|]. split; [repeat split|]. split; [discriminate|].
  split; [exists 1%nat; split; [intros c [<-|[]]; reflexivity|intros c []]|]. split; [unfold distinct_headers; cbn; repeat constructor; intros []|]. split; [intros c [<-|[]] E; discriminate E|].
  split; [|split].
  - intros kvs [<-|[]]. split; [cbn; repeat constructor; intros []|]. intros k. split; [intros [<-|[]]; exists (hd (anon_col 0) (tcols [col_a])); split; [left; reflexivity|split; reflexivity]|intros (c & [<-|[]] & _ & <-); left; reflexivity].
  - intros kvs c v [<-|[]] [<-|[]] _ E; vm_compute in E; injection E as <-; eexists; split; vm_compute; reflexivity.
  - intros rows HF. assert (R : rows = [[CStr (lit "z")]]).
    { apply Forall2_nth in HF. destruct HF as [F1 F2]. destruct rows as [|r1 [|]]; try discriminate. destruct (F2 0%nat _ eq_refl) as (b & X & Y). cbn in X. injection X as <-. apply item_row_iff in Y. vm_compute in Y. injection Y as <-. reflexivity. }
    rewrite R. split; [|split].
    + intros row s [<-|[<-|[]]] [<-|[]]; vm_compute; discriminate.
    + intros _ _. vm_compute. intros. discriminate.
    + intros _ row cell [<-|[<-|[]]] [<-|[]] I; vm_compute in I; repeat (destruct I as [I|I]; [discriminate I|]); exact I.
Qed.
(** the hypotheses of c55_round_trip (and so of c55_write, c55_read), with and without zipping *)
Example c55_nonvacuous : forall zipped,
  plain_group g1 /\ plain_dir (lit "d") /\ component (lit "md.json") /\ no_clash zipped (lit "md.json") (map fst its1) /\ expands expand0 /\
  (forall t, In t (gr_tables g1) -> In (t_url t) (map fst its1)) /\
  (forall n rows, In (n, rows) its1 -> exists t dl, named g1 n t /\ can_create env0 (in_dir (lit "d") n) /\ has_dialect g1 t dl /\ storable sc0 py_modern 131072 zipped dl (t_cols t) rows) /\
  can_create env0 (in_dir (lit "d") (lit "md.json")) /\
  let r := group_write sc0 env0 py_modern 131072 g1 true zipped no_files (lit "d/md.json") (idicts its1) in
  snd r = Ok tt /\
  option_map (map (fun x => (fst x, length (snd x)))) (match group_read sc0 expand0 env0 131072 g1 (fst r) with Ok D => Some D | Err _ => None end) = Some [(lit "t.csv", 2%nat); (lit "u.csv", 1%nat)].
Proof.
  intros zipped. split; [intros t [<-|[<-|[]]]; apply plain_one; comp|]. split; [apply dir_d; comp|]. split; [comp|].
  split; [split; [cbn; repeat constructor; cbn; intuition discriminate|split; [cbn; intuition discriminate|intros _ n [<-|[<-|[]]]; cbn; intuition discriminate]]|].
  split; [split; [intros u d; eexists; reflexivity|reflexivity]|]. split; [intros t [<-|[<-|[]]]; cbn; auto|]. split.
  { intros n rows [E|[E|[]]]; injection E as <- <-.
    - exists (tab (lit "u.csv") (tcols [col_a])), pd. split; [exists [tab (lit "t.csv") cols0], []; split; [reflexivity|split; [reflexivity|intros t []]]|]. split; [apply create_in; [left; reflexivity|comp|reflexivity]|]. split; [right; split; [reflexivity|left; reflexivity]|apply storableA].
    - exists (tab (lit "t.csv") cols0), pd. split; [exists [], [tab (lit "u.csv") (tcols [col_a])]; split; [reflexivity|split; [reflexivity|intros t [<-|[]]; discriminate]]|]. split; [apply create_in; [left; reflexivity|comp|reflexivity]|]. split; [right; split; [reflexivity|left; reflexivity]|apply storable0]. }
  split; [apply create_in; [left; reflexivity|comp|reflexivity]|]. cbn zeta. destruct zipped; split; vm_compute; reflexivity.
Qed.
(** copying it from d to e; and the hypotheses of c55_copy *)
Definition fs1 : files := fst (group_write sc0 env0 py_modern 131072 g1 true false no_files (lit "d/md.json") (idicts its1)).
Example c55_copy_nonvacuous :
  (forall t, In t (gr_tables g1) -> can_create env0 (in_dir (lit "e") (t_url t)) /\ fs1 (in_dir (lit "d") (t_url t)) <> None) /\ can_create env0 (in_dir (lit "e") (lit "md.json")) /\
  (forall t t', In t (gr_tables g1) -> In t' (gr_tables g1) -> in_dir (lit "d") (t_url t) <> in_dir (lit "e") (t_url t')) /\
  let r := group_copy env0 g1 fs1 (lit "e") in snd r = Ok tt /\ fst (fst r) (lit "e/t.csv") = Some (Plain text0) /\ gr_fname (snd (fst r)) = Some (lit "e/md.json").
Proof.
  split; [intros t [<-|[<-|[]]]; (split; [apply create_in; [right; reflexivity|comp|reflexivity]|vm_compute; discriminate])|]. split; [apply create_in; [right; reflexivity|comp|reflexivity]|].
  split; [intros t t' [<-|[<-|[]]] [<-|[<-|[]]]; discriminate|]. cbn zeta. repeat split; vm_compute; reflexivity.
Qed.
(** the hypotheses of c55_write_fails: an unknown table, after one that is written *)
Example c55_fails_nonvacuous : let r := group_write sc0 env0 py_modern 131072 g1 true false no_files (lit "d/md.json") (idicts (its1 ++ [(lit "x.csv", [])])) in
  snd r = Err KeyError /\ fst r (lit "d/t.csv") = Some (Plain text0) /\ fst r (lit "d/md.json") = None.
Proof. cbn zeta. repeat split; vm_compute; reflexivity. Qed.

(** *** What does not hold *)
(** a written group is not read by the object that wrote it, but from where it was loaded *)
Theorem c55_same_object_refuted : exists (g : fgroup value) fs fs', group_write sc0 env0 py_modern 131072 g true false fs (lit "e/md.json") (idicts its1) = (fs', Ok tt) /\
  group_read sc0 expand0 env0 131072 g fs' = Err OtherError.
Proof. exists g1, no_files. eexists. split; [vm_compute; reflexivity|]. vm_compute. reflexivity. Qed.
Print Assumptions c55_same_object_refuted.
(** two tables with the same url: only the second is read or written *)
Theorem c55_same_url_refuted : let g := g0 None (Some (lit "d/md.json")) [tab (lit "t.csv") (tcols [col_a]); tab (lit "t.csv") cols0] in
  map fst (tables_by_name g) = [lit "t.csv"] /\ match group_read sc0 expand0 env0 131072 g fs1 with Ok D => length D = 1%nat /\ length (gr_tables g) = 2%nat | Err _ => False end.
Proof. cbn zeta. split; [reflexivity|]. vm_compute. split; reflexivity. Qed.
Print Assumptions c55_same_url_refuted.
(** a directory that does not exist: the tables are written one level up, then the metadata cannot be written *)
Theorem c55_missing_directory_refuted : let r := group_write sc0 env0 py_modern 131072 g1 true false no_files (lit "d/new/md.json") (idicts its1) in
  snd r = Err OtherError /\ fst r (lit "d/t.csv") = Some (Plain text0).
Proof. cbn zeta. split; vm_compute; reflexivity. Qed.
Print Assumptions c55_missing_directory_refuted.
(** zipped tables can be read, but not copied *)
Theorem c55_copy_zipped_refuted : let fs := fst (group_write sc0 env0 py_modern 131072 g1 true true no_files (lit "d/md.json") (idicts its1)) in
  (exists D, group_read sc0 expand0 env0 131072 g1 fs = Ok D) /\ snd (group_copy env0 g1 fs (lit "e")) = Err OtherError.
Proof. cbn zeta. split; [eexists; vm_compute; reflexivity|vm_compute; reflexivity]. Qed.
Print Assumptions c55_copy_zipped_refuted.
(** with @base, the copy is read from the old location: the files in e are not used *)
Theorem c55_copy_base_refuted : let g := g0 (Some (lit "d/")) (Some (lit "d/md.json")) [tab (lit "t.csv") cols0] in
  let r := group_copy env0 g fs1 (lit "e") in
  snd r = Ok tt /\ gr_fname (snd (fst r)) = Some (lit "e/md.json") /\
  resolve env0 (base_of env0 (snd (fst r)) None) (lit "t.csv") = Local (lit "d/t.csv").
Proof. cbn zeta. repeat split; vm_compute; reflexivity. Qed.
Print Assumptions c55_copy_base_refuted.
