(** The tables of the database are usable (C65). *)
From Coq Require Import Permutation.
From Verif Require Import PyStr Json Dsv DsvProofs4 Datatype Column Schema Table Zip Files Descr DescrProofs Load Group Sql Db DbSql DbSqlSpec DbSpec DbProofs DbProofs2 Sqlite DbWrite DbWriteSpec Cli FrictionlessProofs2
  TableProofs Props_DbRound ToSqlite ToSqliteSpec ToSqliteProofs1 ToSqliteProofs2.

Section P.
Variables (W : world value).
Notation spec_for := (spec_for W).
Notation tr := name_translator.

Lemma usable_tr t c : usable c -> tr t (Some c) = c.
Proof. intros [Ne _]. destruct c; [contradiction Ne; reflexivity|reflexivity]. Qed.
Lemma clean_app a b : clean a -> clean b -> clean (a ++ b).
Proof. intros [A1 A2] [B1 B2]. split; intros I; apply in_app_iff in I; tauto. Qed.
Ltac clean_lit := split; intros H; repeat (destruct H as [H|H]; [discriminate H|]); exact H.
Lemma clean_joint a b : usable a -> usable b -> usable (a ++ lit "_" ++ b).
Proof.
  intros [A1 A2] [_ B2]. split; [destruct a; [contradiction A1; reflexivity|discriminate]|]. apply clean_app; [exact A2|]. apply clean_app; [clean_lit|exact B2].
Qed.
Lemma usable_app a b : usable a -> clean b -> usable (a ++ b).
Proof. intros [A1 A2] B. split; [destruct a; [contradiction A1; reflexivity|discriminate]|apply clean_app; assumption]. Qed.
(** the parts of an association table *)
Lemma assoc_parts ks a : names_fit ks -> assoc_of ks a -> usable (as_a a) /\ usable (as_apk a) /\ usable (as_b a) /\ usable (as_bpk a).
Proof.
  intros Nf M. unfold assoc_of in M. remember (Some (as_a a, as_apk a, as_b a, as_bpk a)) as o eqn:Eo. destruct M as [|k p h res rc Ik L Ep]; [discriminate Eo|]. injection Eo as <- <- <- <-.
  destruct (nf_lists _ Nf k h res rc Ik L) as (_ & _ & c & Ic & Ek & _). destruct L as (fk & c' & Ifk & Sn & Fc & Fr & Fx & _).
  destruct (nf_fkeys _ Nf k fk res Ik Ifk Sn Fr) as (Ur & _ & _ & _ & Ux). rewrite Fx in Ux. inversion Ux; subst. assert (p = tc_header c) by congruence. subst p.
  split; [apply (nf_urls _ Nf k Ik)|]. split; [apply (nf_columns _ Nf k c Ik Ic)|]. split; assumption.
Qed.
Lemma assoc_cols ks a : names_fit ks -> assoc_of ks a -> usable (as_name a) /\ usable (as_afk a) /\ usable (as_bfk a).
Proof.
  intros Nf M. destruct (assoc_parts ks a Nf M) as (A & B & C & D). split; [apply clean_joint; assumption|]. unfold as_afk, as_bfk. change under with (lit "_").
  split; destruct (str_eqb _ _); try (apply clean_joint; assumption); apply usable_app; try (apply clean_joint; assumption); clean_lit.
Qed.
Lemma context_usable : usable (lit "context").
Proof. split; [discriminate|]. clean_lit. Qed.
Lemma assoc_clean ks a : names_fit ks -> assoc_of ks a -> sql_clean tr (association_table a).
Proof.
  intros Nf M. destruct (assoc_cols ks a Nf M) as (A & B & C). destruct (assoc_parts ks a Nf M) as (D & E & F & G). constructor; cbn [association_table ts_name ts_cols ts_pk ts_fks].
  - apply A.
  - intros c [<-|[<-|[<-|[]]]]; cbn [new_colspec cs_name]; (split; [rewrite usable_tr; [|first [exact B|exact C|exact context_usable]]; first [apply B|apply C|apply context_usable]|exact I]).
  - discriminate.
  - intros c [].
  - intros fk [<-|[<-|[]]]; cbn [fst snd]; (split; [discriminate|]; split; [discriminate|]; split; [intros c [<-|[]]; rewrite usable_tr; [|assumption]; first [apply B|apply C]|]; split; [first [apply D|apply F]|]; intros c [<-|[]]; rewrite usable_tr; [|assumption]; first [apply E|apply G]).
Qed.
Lemma sort_nil l : sort_strs l = [] -> l = [].
Proof. intros H. pose proof (sort_strs_perm l) as Pm. rewrite H in Pm. apply Permutation_nil, Pm. Qed.
Lemma table_clean ks k s : names_fit ks -> In k ks -> spec_for s k -> (forall c, In c (ts_cols s) -> bounds_clean c) -> sql_clean tr s.
Proof.
  intros Nf Ik Sf Bc. constructor.
  - rewrite (sf_name _ _ _ Sf). apply (nf_urls _ Nf k Ik).
  - intros c Ic. split; [|apply Bc, Ic]. destruct (sf_in _ _ _ Sf c Ic) as (d & x & -> & Cf & Ix & _). cbn [colspec_of new_colspec cs_name]. rewrite (cf_header _ _ _ Cf).
    pose proof (nf_columns _ Nf k x Ik Ix) as U. rewrite usable_tr by exact U. apply U.
  - intros E. destruct (ts_m2m s) as [|[h a] m] eqn:Em.
    + destruct (nf_headers _ Nf k Ik) as (_ & Ne). destruct (columns k) as [|x l] eqn:Ec; [apply Ne; reflexivity|].
      destruct (sf_of _ _ _ Sf x) as (d & Id & _); [rewrite Ec; left; reflexivity| |rewrite E in Id; exact Id]. intros L. apply (sf_keys _ _ _ Sf) in L. rewrite Em in L. exact L.
    + assert (L : is_list_key k h) by (apply (sf_keys _ _ _ Sf); rewrite Em; left; reflexivity). destruct L as (res & rc & L).
      destruct (nf_lists _ Nf k h res rc Ik L) as (_ & _ & c & Ic & Ek & _). destruct (nf_keys _ Nf k (tc_header c) Ik) as (_ & Nl); [unfold key_columns; rewrite Ek; left; reflexivity|].
      destruct (sf_of _ _ _ Sf c Ic Nl) as (d & Id & _). rewrite E in Id. exact Id.
  - intros p Ip. rewrite (sf_pk _ _ _ Sf) in Ip. destruct (nf_keys _ Nf k p Ik Ip) as (I & _). apply in_map_iff in I. destruct I as (x & <- & Ix). pose proof (nf_columns _ Nf k x Ik Ix) as U. rewrite usable_tr by exact U. apply U.
  - intros fk I. pose proof (sf_fks _ _ _ Sf) as F. rewrite Forall_forall in F. destruct (F fk I) as (f & If & Sn & Fr & Ec & Ex). destruct (nf_fkeys _ Nf k f _ Ik If Sn Fr) as (Ur & N1 & N2 & U1 & U2).
    rewrite Ec, Ex. rewrite Forall_forall in U1, U2. repeat split; try (intros E; apply sort_nil in E; contradiction).
    + intros Ib. apply (Permutation_in _ (sort_strs_perm _)) in H. pose proof (U1 _ H) as U. rewrite usable_tr in Ib by exact U. apply U in Ib. exact Ib.
    + intros Ib. apply (Permutation_in _ (sort_strs_perm _)) in H. pose proof (U1 _ H) as U. rewrite usable_tr in Ib by exact U. apply U in Ib. exact Ib.
    + apply Ur.
    + apply Ur.
    + intros Ib. apply (Permutation_in _ (sort_strs_perm _)) in H. pose proof (U2 _ H) as U. rewrite usable_tr in Ib by exact U. apply U in Ib. exact Ib.
    + intros Ib. apply (Permutation_in _ (sort_strs_perm _)) in H. pose proof (U2 _ H) as U. rewrite usable_tr in Ib by exact U. apply U in Ib. exact Ib.
Qed.
Lemma NoDup_map_inj_in {A B} (f : A -> B) l : NoDup l -> (forall a b, In a l -> In b l -> f a = f b -> a = b) -> NoDup (map f l).
Proof.
  induction l as [|x l IH]; intros Nd Inj; [constructor|]. inversion Nd; subst. cbn [map]. constructor.
  - intros I. apply in_map_iff in I. destruct I as (y & E & Iy). assert (y = x) by (apply Inj; [right; exact Iy|left; reflexivity|exact E]). subst. contradiction.
  - apply IH; [assumption|]. intros a b Ia Ib. apply Inj; right; assumption.
Qed.
Lemma wanted_makes ss ks s : Forall2 spec_for ss ks -> In s (wanted ss) -> exists x, makes ks (ts_name s) x.
Proof. intros F I. destruct (wanted_kind W ss ks s F I) as [[_ (k & _ & _ & M)]|(a & -> & M)]; [exists None; exact M|eexists; exact M]. Qed.
Section Tables.
Variables (ks : list ktable) (ss tables : list tablespec).
Hypothesis (Nf : names_fit ks) (Fs : Forall2 spec_for ss ks) (Nd : NoDup (map ts_name tables)) (Iw : forall s, In s tables <-> In s (wanted ss))
  (Ty : forall s c, In s tables -> In c (ts_cols s) -> cs_db_type c = db_type (cs_type c) (cs_separator c))
  (As : forall s k a, In s tables -> In (k, a) (ts_m2m s) -> In (association_table a) tables /\ as_a a = ts_name s)
  (Bc : forall s c, In s tables -> In c (ts_cols s) -> bounds_clean c).
Lemma tables_good : tables_ok tr tables.
Proof.
  constructor.
  - change (map (fun s => ascii_lower (tr (ts_name s) None)) tables) with (map (fun s => ascii_lower (ts_name s)) tables). rewrite <- (map_map ts_name ascii_lower). apply NoDup_map_inj_in; [exact Nd|].
    intros a b Ia Ib E. apply in_map_iff in Ia, Ib. destruct Ia as (s & <- & Ia), Ib as (s' & <- & Ib). apply Iw in Ia, Ib.
    destruct (wanted_makes _ _ _ Fs Ia) as (x & M), (wanted_makes _ _ _ Fs Ib) as (x' & M'). apply (nf_makes _ Nf _ _ _ _ M M' E).
  - intros s Is. pose proof (proj1 (Iw s) Is) as Iws. destruct (wanted_kind W ss ks s Fs Iws) as [[_ (k & Ik & Sf & _)]|(a & -> & M)].
    + apply (table_clean ks k s Nf Ik Sf). intros c. apply (Bc s c Is).
    + apply (assoc_clean ks a Nf M).
  - exact Ty.
  - intros s p Is Ip. pose proof (proj1 (Iw s) Is) as Iws. destruct (wanted_kind W ss ks s Fs Iws) as [[_ (k & Ik & Sf & _)]|(a & -> & M)]; [|destruct Ip].
    rewrite (sf_pk _ _ _ Sf) in Ip. destruct (nf_keys _ Nf k p Ik Ip) as (I & Nl). apply in_map_iff in I. destruct I as (x & <- & Ix). destruct (sf_of _ _ _ Sf x Ix Nl) as (d & Id & Cf).
    apply in_map_iff. exists (colspec_of d). split; [cbn [colspec_of new_colspec cs_name]; apply (cf_header _ _ _ Cf)|exact Id].
  - exact As.
Qed.
(** the rows are for tables that are not association tables *)
Lemma assoc_fresh s k a u : In s tables -> In (k, a) (ts_m2m s) -> In u ks -> as_name a <> url_of u.
Proof.
  intros Is Ia Iu E. pose proof (proj1 (Iw s) Is) as Iws. destruct (wanted_kind W ss ks s Fs Iws) as [[Is' _]|(a' & -> & M)]; [|destruct Ia].
  pose proof (assoc_makes W ss ks s k a Fs Is' Ia) as M. destruct (nf_makes _ Nf _ _ _ _ M (mk_table ks u Iu)) as [_ X]; [rewrite E; reflexivity|discriminate X].
Qed.
Lemma spec_in_tables k : In k ks -> exists s, In s ss /\ In s tables /\ spec_for s k /\ free tables s.
Proof.
  intros Ik. destruct (Forall2_in_r _ _ _ Fs k Ik) as (s & Is & Sf). exists s. split; [exact Is|]. split; [apply Iw; unfold wanted; apply in_flat_map; exists s; split; [exact Is|left; reflexivity]|].
  split; [exact Sf|]. intros s' h a Is' Ia. rewrite (sf_name _ _ _ Sf). apply (assoc_fresh s' h a k Is' Ia Ik).
Qed.
End Tables.
End P.
