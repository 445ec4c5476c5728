(** Which tables, columns and keys the database has (C65). *)
From Coq Require Import Permutation.
From Verif Require Import PyStr Json Dsv DsvProofs4 Datatype Column Schema Table Zip Files Descr DescrProofs Load Group Sql Db DbSql DbSqlSpec DbSpec DbProofs DbProofs2 Sqlite DbWrite DbWriteSpec Cli FrictionlessProofs2
  TableProofs Props_DbRound ToSqlite ToSqliteSpec ToSqliteProofs1.

Section P.
Variables (W : world value).
Notation col_for := (col_for W). Notation table_for := (table_for W).

Lemma Forall2_in_l {A B} (R : A -> B -> Prop) l l' : Forall2 R l l' -> forall x, In x l -> exists y, In y l' /\ R x y.
Proof. intros F. induction F as [|a b l l' H F IH]; intros x [].
  - subst. exists b. split; [left; reflexivity|exact H].
  - destruct (IH x H0) as (y & I & R'). exists y. split; [right; exact I|exact R'].
Qed.
Lemma Forall2_in_r {A B} (R : A -> B -> Prop) l l' : Forall2 R l l' -> forall y, In y l' -> exists x, In x l /\ R x y.
Proof. intros F. induction F as [|a b l l' H F IH]; intros y [].
  - subst. exists a. split; [left; reflexivity|exact H].
  - destruct (IH y H0) as (x & I & R'). exists x. split; [right; exact I|exact R'].
Qed.

Lemma dget_keys {V} (d : list (pystr * V)) k : In k (map fst d) <-> dget str_eqb d k <> None.
Proof.
  induction d as [|[k' v] d IH]; cbn [map fst dget]; [split; [intros []|intros H; exfalso; apply H; reflexivity]|]. destruct (str_eqb k k') eqn:E.
  - apply str_eqb_eq in E. subst. split; [discriminate|left; reflexivity].
  - rewrite <- IH. split; [intros [<-|I]; [rewrite str_eqb_refl in E; discriminate E|exact I]|intros I; right; exact I].
Qed.
Lemma dset_keys {V} (d : list (pystr * V)) k v h : In h (map fst (dset str_eqb d k v)) <-> h = k \/ In h (map fst d).
Proof.
  rewrite !dget_keys. destruct (str_eq_dec h k) as [->|Ne]; [rewrite dget_dset_same; split; [left; reflexivity|discriminate]|].
  rewrite dget_dset_other by exact Ne. split; [right; assumption|intros [E|H]; [contradiction|exact H]].
Qed.
Definition has_sep (k : ktable) (h : pystr) : Prop := exists c x s, In c (columns k) /\ tc_header c = h /\ de_separator (c_desc (tc_col c)) = Some (x :: s).
Lemma listed_cols d k h : table_for d k -> str_mem h (list_valued d) = true <-> has_sep k h.
Proof.
  intros T. rewrite str_mem_In. unfold list_valued. rewrite in_map_iff. split.
  - intros (c & <- & I). apply filter_In in I. destruct I as [I O]. destruct (Forall2_in_l _ _ _ (tf_cols _ _ _ T) c I) as (c' & I' & Cf).
    rewrite (cf_own _ _ _ Cf) in O. destruct (de_separator (c_desc (tc_col c'))) as [[|x s]|] eqn:E; try discriminate O. exists c', x, s. rewrite (cf_header _ _ _ Cf). repeat split; assumption.
  - intros (c & x & s & I & <- & E). destruct (Forall2_in_r _ _ _ (tf_cols _ _ _ T) c I) as (d' & I' & Cf). exists d'. split; [apply (cf_header _ _ _ Cf)|]. apply filter_In. split; [exact I'|].
    rewrite (cf_own _ _ _ Cf), E. reflexivity.
Qed.
Definition spec_fk (k : ktable) (f : fkspec) : Prop :=
  exists fk, In fk (k_fks k) /\ fk_schemaReference fk = None /\ fk_resource fk = Some (snd (fst f)) /\ fst (fst f) = sort_strs (fk_cols fk) /\ snd f = sort_strs (fk_refcols fk).
Definition spec_assoc (k : ktable) (ha : pystr * assoc) : Prop :=
  as_a (snd ha) = url_of k /\ k_pk k = Some [as_apk (snd ha)] /\ list_key k (fst ha) (as_b (snd ha)) (as_bpk (snd ha)).
Lemma key_columns_one k p : key_columns k = [p] -> k_pk k = Some [p].
Proof. unfold key_columns. destruct (k_pk k); [intros ->; reflexivity|discriminate]. Qed.
Lemma fk_kept k d fks : forall acc r, table_for d k ->
  (forall x, In x fks -> exists fk, In fk (k_fks k) /\ fk_for x fk) ->
  add_fks true (dt_name d) (dt_pk d) (list_valued d) acc fks = Ok r ->
  Forall (spec_fk k) (fst acc) -> Forall (spec_assoc k) (snd acc) -> NoDup (map fst (snd acc)) ->
  Forall (spec_fk k) (fst r) /\ Forall (spec_assoc k) (snd r) /\ NoDup (map fst (snd r)) /\
  (forall h, In h (map fst (snd acc)) -> In h (map fst (snd r))) /\
  (forall x fk, In x fks -> fk_for x fk -> fk_schemaReference fk = None -> forall h, fk_cols fk = [h] -> has_sep k h -> In h (map fst (snd r))).
Proof.
  induction fks as [|x fks IH]; intros acc r T Hf H F1 F2 Nd; cbn [add_fks] in H.
  - apply Ok_inj in H. subst r. repeat split; try assumption; [intros h I; exact I|intros ? ? []].
  - apply bind_inv in H. destruct H as (acc' & E & H).
    assert (St : Forall (spec_fk k) (fst acc') /\ Forall (spec_assoc k) (snd acc') /\ NoDup (map fst (snd acc')) /\
      (forall h, In h (map fst (snd acc)) -> In h (map fst (snd acc'))) /\
      (forall fk, fk_for x fk -> fk_schemaReference fk = None -> forall h, fk_cols fk = [h] -> has_sep k h -> In h (map fst (snd acc')))).
    { destruct (Hf x (or_introl eq_refl)) as (fk & Ifk & (Fc & Fs & Fr & Fx)). unfold add_fk in E. destruct (dk_schema x) eqn:Ds.
      { apply Ok_inj in E. subst acc'. repeat split; try assumption; [intros h I; exact I|]. intros fk' (_ & Fs' & _) Sn. exfalso. apply (proj1 Fs' Ds). exact Sn. }
      assert (Sn : fk_schemaReference fk = None). { destruct (fk_schemaReference fk); [|reflexivity]. assert (X : false = true) by (apply Fs; discriminate). discriminate X. }
      specialize (Fr eq_refl).
      assert (Pl : (if true && str_eqb (dk_resource x) (dt_name d) then Ok acc
          else Ok (fst acc ++ [(sort_strs (dk_cols x), dk_resource x, sort_strs (dk_refcols x))], snd acc)) = Ok acc' ->
          Forall (spec_fk k) (fst acc') /\ Forall (spec_assoc k) (snd acc') /\ NoDup (map fst (snd acc')) /\ (forall h, In h (map fst (snd acc)) -> In h (map fst (snd acc')))).
      { intros E'. destruct (true && _); apply Ok_inj in E'; subst acc'; cbn [fst snd]; repeat split; try assumption; try (intros h I; exact I).
        apply Forall_app. split; [exact F1|]. constructor; [|constructor]. exists fk. cbn [fst snd]. rewrite Fc, Fx. repeat split; assumption. }
      assert (Pl' : (forall h, dk_cols x = [h] -> ~ has_sep k h) -> (if true && str_eqb (dk_resource x) (dt_name d) then Ok acc
          else Ok (fst acc ++ [(sort_strs (dk_cols x), dk_resource x, sort_strs (dk_refcols x))], snd acc)) = Ok acc' ->
          Forall (spec_fk k) (fst acc') /\ Forall (spec_assoc k) (snd acc') /\ NoDup (map fst (snd acc')) /\
      (forall h, In h (map fst (snd acc)) -> In h (map fst (snd acc'))) /\
      (forall fk, fk_for x fk -> fk_schemaReference fk = None -> forall h, fk_cols fk = [h] -> has_sep k h -> In h (map fst (snd acc')))).
      { intros Nh E'. destruct (Pl E') as (A1 & A2 & A3 & A4). repeat split; try assumption. intros fk' (Fc' & _) _ h Eh Hs. exfalso. apply (Nh h); [congruence|exact Hs]. }
      destruct (dk_cols x) as [|c [|c2 cs]] eqn:Ec; [apply Pl'; [discriminate|exact E]| |apply Pl'; [discriminate|exact E]].
      destruct (str_mem c (list_valued d)) eqn:Lc.
      - apply (listed_cols d k c T) in Lc. destruct (dk_refcols x) as [|rc [|]] eqn:Er; try discriminate E. destruct (dt_pk d) as [|p [|]] eqn:Ep; try discriminate E. apply Ok_inj in E. subst acc'. cbn [fst snd].
        repeat split; [exact F1| |apply dset_keys_nodup, Nd| |].
        + apply Forall_forall. intros [h a] I. apply (dset_In _ _ _ _ Nd) in I. destruct I as [I|[I _]].
          * injection I as -> ->. unfold spec_assoc. cbn [fst snd as_a as_apk as_b as_bpk]. repeat split; [apply (tf_name _ _ _ T)|apply key_columns_one; rewrite <- (tf_pk _ _ _ T); exact Ep|].
            destruct Lc as (c0 & y & s & Ic & Hh & Sp). exists fk, c0. repeat split; try assumption; try (symmetry; assumption). exists y, s. exact Sp.
          * rewrite Forall_forall in F2. apply F2, I.
        + intros h I. apply dset_keys. right. exact I.
        + intros fk' (Fc' & _) _ h Eh _. apply dset_keys. left. congruence.
      - apply Pl'; [|exact E]. intros h Eh Hs. injection Eh as <-. apply (listed_cols d k c T) in Hs. congruence. }
    destruct St as (A1 & A2 & A3 & A4 & A5). destruct (IH acc' r T (fun y I => Hf y (or_intror I)) H A1 A2 A3) as (B1 & B2 & B3 & B4 & B5).
    repeat split; try assumption.
    + intros h I. apply B4, A4, I.
    + intros y fk [<-|I] Ff Sn h Eh Hs; [apply B4, (A5 fk Ff Sn h Eh Hs)|apply (B5 y fk I Ff Sn h Eh Hs)].
Qed.

(** a table of the database, for a table *)
Record spec_for (s : tablespec) (k : ktable) : Prop := {
  sf_name : ts_name s = url_of k;
  sf_pk : ts_pk s = key_columns k;
  sf_fks : Forall (spec_fk k) (ts_fks s);
  sf_m2m : Forall (spec_assoc k) (ts_m2m s);
  sf_nodup : NoDup (map fst (ts_m2m s));
  sf_keys : forall h, In h (map fst (ts_m2m s)) <-> is_list_key k h;
  sf_in : forall c, In c (ts_cols s) -> exists d x, c = colspec_of d /\ col_for d x /\ In x (columns k) /\ ~ is_list_key k (tc_header x);
  sf_of : forall x, In x (columns k) -> ~ is_list_key k (tc_header x) -> exists d, In (colspec_of d) (ts_cols s) /\ col_for d x;
  sf_sep : forall x, In x (columns k) -> exists d, col_for d x;
  sf_distinct : NoDup (map tc_header (columns k)) -> NoDup (map cs_name (ts_cols s));
}.
Lemma spec_of_table d k s : table_for d k -> from_table_metadata true d = Ok s -> spec_for s k.
Proof.
  intros T H. unfold from_table_metadata in H. apply bind_inv in H. destruct H as (r & E & H). apply Ok_inj in H. subst s.
  destruct (fk_kept k d (dt_fks d) ([], []) r T) as (A1 & A2 & A3 & _ & A5); [|exact E|exact (Forall_nil _)|exact (Forall_nil _)|exact (NoDup_nil _)|].
  { intros x I. destruct (Forall2_in_l _ _ _ (tf_fks _ _ _ T) x I) as (fk & I' & F). exists fk. split; assumption. }
  assert (Kk : forall h, In h (map fst (snd r)) <-> is_list_key k h).
  { intros h. split.
    - intros I. apply in_map_iff in I. destruct I as ([h' a] & <- & I). rewrite Forall_forall in A2. destruct (A2 _ I) as (_ & _ & L). eexists _, _. exact L.
    - intros (res & rc & fk & c & Ifk & Sn & Fc & Fr & Fx & Ic & Hh & x & sp & Sp). destruct (Forall2_in_r _ _ _ (tf_fks _ _ _ T) fk Ifk) as (y & Iy & Fy).
      apply (A5 y fk Iy Fy Sn h Fc). exists c, x, sp. repeat split; assumption. }
  constructor; cbn [ts_name ts_pk ts_fks ts_m2m ts_cols]; try assumption; [apply (tf_name _ _ _ T)|apply (tf_pk _ _ _ T)| | | |].
  - intros c I. apply in_map_iff in I. destruct I as (d' & <- & I). apply filter_In in I. destruct I as [I Nn].
    destruct (Forall2_in_l _ _ _ (tf_cols _ _ _ T) d' I) as (x & Ix & Cf). exists d', x. split; [reflexivity|]. split; [exact Cf|]. split; [exact Ix|]. rewrite <- (cf_header _ _ _ Cf). intros L. apply Kk, dget_keys in L.
    destruct (dget str_eqb (snd r) (dc_header d')); [discriminate Nn|apply L; reflexivity].
  - intros x Ix Nl. destruct (Forall2_in_r _ _ _ (tf_cols _ _ _ T) x Ix) as (d' & Id & Cf). exists d'. split; [|exact Cf]. apply in_map, filter_In. split; [exact Id|].
    destruct (dget str_eqb (snd r) (dc_header d')) eqn:G; [|reflexivity]. exfalso. apply Nl. apply Kk, dget_keys. rewrite <- (cf_header _ _ _ Cf), G. discriminate.
  - intros x Ix. destruct (Forall2_in_r _ _ _ (tf_cols _ _ _ T) x Ix) as (d' & _ & Cf). exists d'. exact Cf.
  - intros Nd. rewrite map_map. assert (Eh : map dc_header (dt_cols d) = map tc_header (columns k)).
    { clear -T. pose proof (tf_cols _ _ _ T) as F. induction F as [|x y l l' H F IH]; [reflexivity|]. cbn [map]. rewrite (cf_header _ _ _ H), IH. reflexivity. }
    rewrite <- Eh in Nd. clear -Nd. assert (X : forall l, NoDup (map dc_header l) -> forall f, NoDup (map dc_header (filter f l))).
    { induction l as [|a l IH]; intros N0 f; [constructor|]. inversion N0; subst. cbn [filter]. destruct (f a); [|apply IH; assumption]. cbn [map]. constructor; [|apply IH; assumption].
      intros I. apply H1. apply in_map_iff in I. destruct I as (b & Eb & Ib). apply filter_In in Ib. rewrite <- Eb. apply in_map, Ib. }
    apply X, Nd.
Qed.
Lemma is_list_key_dec s k : spec_for s k -> forall h, is_list_key k h \/ ~ is_list_key k h.
Proof. intros S h. destruct (in_dec str_eq_dec h (map fst (ts_m2m s))) as [I|I]; [left|right]; rewrite <- (sf_keys _ _ S h); exact I. Qed.

(** ** The tables of the database *)
Lemma dtables_all ds ks : Forall2 table_for ds ks -> NoDup (map url_of ks) -> map snd (dtables ds) = ds.
Proof.
  intros F Nd. assert (E : map dt_name ds = map url_of ks). { clear Nd. induction F as [|d k ds' ks' H F IH]; [reflexivity|]. cbn [map]. rewrite (tf_name _ _ _ H), IH. reflexivity. }
  unfold dtables. rewrite (dset_all_new str_eqb str_eqb_eq (map (fun t => (dt_name t, t)) ds) []); cbn [app map].
  - rewrite map_map. cbn. apply map_id.
  - rewrite map_map. change (NoDup (map dt_name ds)). rewrite E. exact Nd.
Qed.
Lemma specs_of ds ks ss : Forall2 table_for ds ks -> mapM (from_table_metadata true) ds = Ok ss -> Forall2 spec_for ss ks.
Proof.
  intros F. revert ss. induction F as [|d k ds' ks' H F IH]; intros ss M; cbn [mapM] in M; [apply Ok_inj in M; subst; constructor|].
  apply bind_inv in M. destruct M as (s & Es & M). apply bind_inv in M. destruct M as (ss' & Es' & M). apply Ok_inj in M. subst. constructor; [apply (spec_of_table _ _ _ H Es)|apply IH, Es'].
Qed.
(** a table of the database is one of the tables, or an association table *)
Definition assoc_of (ks : list ktable) (a : assoc) : Prop := makes ks (as_name a) (Some (as_a a, as_apk a, as_b a, as_bpk a)).
Lemma assoc_makes ss ks s h a : Forall2 spec_for ss ks -> In s ss -> In (h, a) (ts_m2m s) -> assoc_of ks a.
Proof.
  intros F Is Ia. destruct (Forall2_in_l _ _ _ F s Is) as (k & Ik & Sf). pose proof (sf_m2m _ _ Sf) as M. rewrite Forall_forall in M. destruct (M _ Ia) as (Ea & Ep & L). cbn [fst snd] in *.
  unfold assoc_of, as_name, under. rewrite Ea. apply (mk_association ks k (as_apk a) h (as_b a) (as_bpk a) Ik L Ep).
Qed.
Lemma wanted_kind ss ks s : Forall2 spec_for ss ks -> In s (wanted ss) ->
  (In s ss /\ exists k, In k ks /\ spec_for s k /\ makes ks (ts_name s) None) \/ exists a, s = association_table a /\ assoc_of ks a.
Proof.
  intros F I. unfold wanted in I. apply in_flat_map in I. destruct I as (s0 & I0 & [<-|I]).
  - left. split; [exact I0|]. destruct (Forall2_in_l _ _ _ F s0 I0) as (k & Ik & Sf). exists k. split; [exact Ik|]. split; [exact Sf|]. rewrite (sf_name _ _ Sf). apply mk_table, Ik.
  - right. apply in_map_iff in I. destruct I as ([h a] & <- & Ia). exists a. split; [reflexivity|]. apply (assoc_makes ss ks s0 h a F I0 Ia).
Qed.
Lemma names_of_specs ss ks : Forall2 spec_for ss ks -> map ts_name ss = map url_of ks.
Proof. intros F. induction F as [|s k ss' ks' H F IH]; [reflexivity|]. cbn [map]. rewrite (sf_name _ _ H), IH. reflexivity. Qed.
Lemma specs_unique ss : NoDup (map ts_name ss) -> forall a b, In a ss -> In b ss -> ts_name a = ts_name b -> a = b.
Proof.
  induction ss as [|s ss IH]; intros Nd a b Ia Ib E; [destruct Ia|]. inversion Nd as [|? ? Ni Nd']; subst. destruct Ia as [<-|Ia], Ib as [<-|Ib]; [reflexivity| | |apply (IH Nd' a b Ia Ib E)].
  - exfalso. apply Ni. rewrite E. apply in_map, Ib.
  - exfalso. apply Ni. rewrite <- E. apply in_map, Ia.
Qed.
Lemma no_clash ss ks : Forall2 spec_for ss ks -> names_fit ks -> no_name_clash ss.
Proof.
  intros F Nf a b Ia Ib E. destruct (wanted_kind ss ks a F Ia) as [[Ia' (k & Ik & Sf & M)]|(x & -> & M)], (wanted_kind ss ks b F Ib) as [[Ib' (k' & Ik' & Sf' & M')]|(x' & -> & M')].
  - apply (specs_unique ss); try assumption. rewrite (names_of_specs _ _ F). apply (nf_tables _ Nf).
  - destruct (nf_makes _ Nf _ _ _ _ M M') as [_ X]; [|discriminate X]. cbn [association_table ts_name] in E. rewrite E. reflexivity.
  - destruct (nf_makes _ Nf _ _ _ _ M M') as [_ X]; [|discriminate X]. cbn [association_table ts_name] in E. rewrite <- E. reflexivity.
  - destruct (nf_makes _ Nf _ _ _ _ M M') as [_ X]; [cbn [association_table ts_name] in E; rewrite E; reflexivity|]. destruct x, x'. cbn in X. injection X as -> -> -> ->. reflexivity.
Qed.
Lemma tables_in ds ks tables : Forall2 table_for ds ks -> names_fit ks -> schema true ds = Ok tables ->
  exists ss, Forall2 spec_for ss ks /\ NoDup (map ts_name tables) /\ (forall s, In s tables <-> In s (wanted ss)) /\
    (forall s c, In s tables -> In c (ts_cols s) -> cs_db_type c = db_type (cs_type c) (cs_separator c)) /\
    (forall s k a, In s tables -> In (k, a) (ts_m2m s) -> In (association_table a) tables /\ as_a a = ts_name s).
Proof.
  intros F Nf H. destruct (c39_schema _ _ _ H) as (T1 & T2 & T3). destruct (schema_sound _ _ _ _ H) as (ss & d & M & Ed & Pm & Rest). exists ss.
  pose proof M as M'. rewrite (dtables_all _ _ F (nf_tables _ Nf)) in M'. pose proof (specs_of _ _ _ F M') as Fs. pose proof (no_clash _ _ Fs Nf) as Nc.
  split; [exact Fs|]. subst d. split.
  - eapply Permutation_NoDup; [apply Permutation_sym, Permutation_map, Pm|]. destruct (dict_of_spec ss) as (K & _). rewrite (keyed_names _ K). apply K.
  - split; [|split; [exact T1|]].
    + intros s. rewrite <- (dict_of_wanted ss Nc s). split; intros I; [apply (Permutation_in _ Pm I)|apply (Permutation_in _ (Permutation_sym Pm) I)].
    + intros s k a Is Ia. split; [apply (T3 ss M Nc s k a Is Ia)|apply (T2 s k a Is Ia)].
Qed.
End P.
