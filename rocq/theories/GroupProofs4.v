(** Proofs for C33 (verdict) and C47. *)
From Verif Require Import PyStr Dsv DsvSpec DsvProofs4 Column Schema Table TableSpec TableProofs TableProofs2 TableProofs5 TableProofs6 Group GroupSpec GroupProofs1 GroupProofs2 GroupProofs3.

Section P.
Context {V : Type} (veq : V -> V -> bool) (Heq : equivalence veq).
Notation gtable := (@gtable V).

Theorem integrity_iff (strict log : bool) (ts : list gtable) :
  snd (check_referential_integrity veq strict log ts) = Ok true <-> integrity_holds veq strict log ts.
Proof.
  unfold integrity_holds. split.
  - intros H. destruct (check_Ok veq _ _ _ _ H) as (H1 & H2 & H3). specialize (H2 eq_refl). destruct (H3 H2) as [Hr Hu].
    destruct (integrity_sound veq Heq strict log ts H) as (_ & _ & Ha & Hs).
    split; [exact H2|]. split; [exact Hr|]. split; [exact Hu|]. split; [exact Ha|]. intros E. specialize (H1 E). specialize (Hs E). tauto.
  - intros (Hm & Hr & Hu & Ha & Hs). assert (Hs' : strict = true -> readable_children ts /\ no_nulls ts) by (intros E; specialize (Hs E); tauto).
    destruct log.
    + destruct (integrity_log veq Heq strict ts Hm Hr Hu Hs') as (b & ms & E & Hb & _). rewrite E. cbn. f_equal. apply Hb. split; [exact Ha|]. intros Es. specialize (Hs Es). tauto.
    + destruct (integrity_nolog veq Heq strict ts Hm Hr Hu Hs') as (H & _). destruct (H Ha) as (b & E & Hb). rewrite E. cbn. f_equal. apply Hb. intros Es. specialize (Hs Es). tauto.
Qed.

Lemma pk_loop_keys log pk endr rows : forall seen success b, snd (pk_loop veq log pk seen success rows endr) = Ok b ->
  endr = None /\ exists keys, Forall2 (fun lr key => has_keys pk (snd lr) key) rows keys /\ forall key, In key keys -> no_lists key.
Proof.
  induction rows as [|[line d] rows IH]; intros seen success b H; cbn [pk_loop] in H.
  - destruct endr; [discriminate|]. split; [reflexivity|]. exists []. split; [constructor|intros key []].
  - destruct (get_key pk d) as [key|] eqn:E; [|discriminate]. apply get_key_iff in E. destruct (negb (forallb hashable key)) eqn:Eh; [discriminate|].
    apply negb_false_iff in Eh. apply hashable_iff in Eh.
    assert (G : endr = None /\ exists keys, Forall2 (fun lr key => has_keys pk (snd lr) key) rows keys /\ forall key, In key keys -> no_lists key).
    { destruct (existsb (key_eq veq key) seen).
      - destruct log; [|discriminate]. cbn in H. eapply IH. destruct (pk_loop veq true pk seen false rows endr) as [ms r] eqn:E'. cbn in H. rewrite E'. cbn. exact H.
      - eapply IH. exact H. }
    destruct G as (G1 & keys & G2 & G3). split; [exact G1|]. exists (key :: keys). split; [constructor; assumption|]. intros k [<-|Hk]; [exact Eh|apply G3; exact Hk].
Qed.
Lemma pk_iff (t : gtable) : snd (check_primary_key veq false (g_pk t) (g_iter t true)) = Ok true <-> primary_key_unique veq t.
Proof.
  unfold primary_key_unique. destruct (g_pk t) as [[|k ks]|]; try (cbn; tauto). split.
  - intros H. pose proof H as H0. cbn in H0. apply pk_loop_keys in H0. destruct H0 as (He & keys & Hk & Hl).
    destruct (primary_key_nolog veq Heq k ks (g_iter t true) keys Hk Hl) as (_ & H1 & H2). exists keys. split; [exact Hk|]. split; [exact Hl|]. split; [|exact He].
    intros i Hi. rewrite H1 in H by eauto. discriminate.
  - intros (keys & Hk & Hl & Hn & He). destruct (primary_key_nolog veq Heq k ks (g_iter t true) keys Hk Hl) as (_ & _ & H2). rewrite H2 by exact Hn. rewrite He. reflexivity.
Qed.
Lemma pk_nolog_true pk (o : @iterout V) b : snd (check_primary_key veq false pk o) = Ok b -> b = true.
Proof.
  destruct pk as [[|k ks]|]; cbn; try congruence. intros H. revert H.
  assert (G : forall rows seen, snd (pk_loop veq false (k :: ks) seen true rows (io_end o)) = Ok b -> b = true).
  { induction rows as [|[line d] rows IH]; intros seen; cbn [pk_loop]; [destruct (io_end o); cbn; congruence|].
    destruct (get_key (k :: ks) d); [|discriminate]. destruct (negb _); [discriminate|]. destruct (existsb _ _); [discriminate|]. apply IH. }
  apply G.
Qed.
Lemma mapM_all_nil {A B} (f : A -> res (list B)) l : (exists bs, mapM f l = Ok bs /\ concat bs = []) <-> forall a, In a l -> f a = Ok [].
Proof.
  induction l as [|a l IH]; cbn.
  - split; [intros _ a []|]. intros _. exists []. auto.
  - split.
    + intros (bs & H & Hc). destruct (f a) as [b|] eqn:E; [|discriminate]. cbn in H. destruct (mapM f l) as [bs'|] eqn:E'; [|discriminate]. cbn in H. injection H as <-.
      cbn in Hc. apply app_eq_nil in Hc. destruct Hc as [-> Hc]. intros x [<-|Hx]; [exact E|]. apply IH; [|exact Hx]. exists bs'. auto.
    + intros H. rewrite (H a (or_introl eq_refl)). cbn. destruct (proj2 IH) as (bs & -> & Hc); [intros x Hx; apply H; right; exact Hx|]. exists ([] :: bs). cbn. auto.
Qed.
Lemma validate_iff (t : gtable) : validate_table veq t = Ok [] <->
  reads_quietly t /\ primary_key_unique veq t /\ (forall k ks, g_pk t = Some (k :: ks) -> io_warns (g_iter t true) = []).
Proof.
  unfold validate_table, reads_quietly. rewrite <- pk_iff. destruct (io_end (g_lax t)) as [e|]; [split; [discriminate|intros [[H _] _]; discriminate]|].
  destruct (snd (check_primary_key veq false (g_pk t) (g_iter t true))) as [b|e] eqn:E; [|split; [discriminate|intros (_ & H & _); discriminate]].
  rewrite (pk_nolog_true _ _ _ E). cbn [bind]. rewrite app_nil_r. split.
  - intros H. injection H as H. apply app_eq_nil in H. destruct H as [H1 H2]. split; [auto|]. split; [reflexivity|]. intros k ks Ek. rewrite Ek in H2. exact H2.
  - intros ((_ & H1) & _ & H2). rewrite H1. cbn [app]. destruct (g_pk t) as [[|k ks]|]; auto. rewrite (H2 k ks eq_refl). reflexivity.
Qed.
Lemma flat_map_nil_iff {A B} (f : A -> list B) l : flat_map f l = [] <-> forall a, In a l -> f a = [].
Proof.
  induction l as [|a l IH]; cbn; [split; [intros _ x []|reflexivity]|]. split.
  - intros H. apply app_eq_nil in H. destruct H as [H1 H2]. intros x [<-|Hx]; [exact H1|]. apply IH; assumption.
  - intros H. rewrite (H a (or_introl eq_refl)). apply IH. intros x Hx. apply H. right. exact Hx.
Qed.
Lemma integrity_warnings_iff (ts : list gtable) : integrity_warnings ts = [] <->
  (forall t, In t ts -> g_fkeys t <> [] -> io_warns (g_iter t false) = [])
  /\ (forall child fk target, refers_to ts child fk target -> io_warns (g_iter target false) = []).
Proof.
  unfold integrity_warnings. rewrite flat_map_nil_iff. split.
  - intros H. split.
    + intros t Ht Hf. specialize (H t Ht). rewrite flat_map_nil_iff in H. destruct (g_fkeys t) as [|fk fks]; [congruence|]. specialize (H fk (or_introl eq_refl)).
      apply app_eq_nil in H. apply H.
    + intros child fk target (H1 & H2 & H3 & r & Hr & Hl). specialize (H child H1). rewrite flat_map_nil_iff in H. specialize (H fk H2). apply app_eq_nil in H. destruct H as [_ H].
      unfold internal in H. rewrite H3, Hr in H. apply tabledict_last in Hl. rewrite Hl in H. exact H.
  - intros [H1 H2] t Ht. apply flat_map_nil_iff. intros fk Hf. rewrite H1; [|exact Ht|intros E; rewrite E in Hf; destruct Hf]. cbn [app].
    destruct (internal fk) eqn:Ei; [|reflexivity]. destruct (fk_resource fk) as [r|] eqn:Er; [|reflexivity]. destruct (dget str_eqb (tabledict ts) r) as [target|] eqn:Et; [|reflexivity].
    apply (H2 t fk target). split; [exact Ht|]. split; [exact Hf|]. split; [unfold internal in Ei; destruct (fk_schemaReference fk); [discriminate|reflexivity]|].
    exists r. split; [exact Er|]. apply tabledict_last. exact Et.
Qed.
Theorem is_valid_iff loading (ts : list gtable) : is_valid veq loading ts = Ok true <->
  loading = [] /\ (forall t, In t ts -> reads_quietly t /\ primary_key_unique veq t) /\ integrity_holds veq true false ts /\ key_checks_quiet ts.
Proof.
  unfold is_valid. destruct loading as [|w loading]; [|split; [discriminate|intros [H _]; discriminate]].
  rewrite <- integrity_iff. unfold key_checks_quiet. rewrite <- integrity_warnings_iff.
  pose proof (mapM_all_nil (validate_table veq) ts) as M. split.
  - intros H. destruct (mapM (validate_table veq) ts) as [ws|] eqn:E; [|discriminate]. cbn [bind] in H.
    destruct (snd (check_referential_integrity veq true false ts)) as [b|]; [|discriminate]. cbn [bind] in H. destruct (concat ws ++ _) as [|w l] eqn:Ew; [|discriminate].
    apply app_eq_nil in Ew. destruct Ew as [Hc Ew]. apply app_eq_nil in Ew. destruct Ew as [Hi Hb]. destruct b; [|discriminate].
    assert (Hall : forall t, In t ts -> validate_table veq t = Ok []) by (apply M; eauto).
    split; [reflexivity|]. split; [intros t Ht; apply Hall in Ht; apply validate_iff in Ht; tauto|]. split; [reflexivity|]. split; [|exact Hi].
    intros t k ks Ht. apply Hall in Ht. apply validate_iff in Ht. apply Ht.
  - intros (_ & H1 & H2 & H3 & H4). destruct (proj2 M) as (ws & E & Hc).
    + intros t Ht. apply validate_iff. destruct (H1 t Ht). split; [assumption|]. split; [assumption|]. intros k ks Ek. eapply H3; eassumption.
    + rewrite E. cbn [bind]. rewrite H2. cbn [bind]. rewrite Hc, H4. reflexivity.
Qed.
(** no other verdict than True is given without a warning, and no exception but the listed ones is handled *)
Theorem duplicate_raises (ts : list gtable) t pre post k ks keys : ts = pre ++ t :: post ->
  (forall u, In u pre -> exists w, validate_table veq u = Ok w) -> io_end (g_lax t) = None ->
  g_pk t = Some (k :: ks) -> Forall2 (fun lr key => has_keys (k :: ks) (snd lr) key) (rows_of true t) keys -> (forall key, In key keys -> no_lists key) ->
  (exists i, repeated veq keys i) -> is_valid veq [] ts = Err ValueError.
Proof.
  intros -> Hpre He Hp Hk Hl Hd. unfold is_valid. assert (Et : validate_table veq t = Err ValueError).
  { unfold validate_table. rewrite He, Hp. destruct (primary_key_nolog veq Heq k ks (g_iter t true) keys Hk Hl) as (_ & H & _). rewrite (H Hd). reflexivity. }
  assert (E : mapM (validate_table veq) (pre ++ t :: post) = Err ValueError).
  { induction pre as [|u pre IH]; cbn.
    - rewrite Et. reflexivity.
    - destruct (Hpre u (or_introl eq_refl)) as [w Hw]. rewrite Hw. cbn. rewrite IH by (intros x Hx; apply Hpre; right; exact Hx). reflexivity. }
  rewrite E. reflexivity.
Qed.
End P.
