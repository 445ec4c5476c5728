(** The order of creation (C37). *)
From Coq Require Import Relations Permutation Lia.
From Verif Require Import PyStr Dsv DsvProofs4 Group GroupProofs1 Db DbSpec.

Lemma all_specs_eq drop ts : forall acc,
  all_specs drop acc ts =
  (ss <- mapM (from_table_metadata drop) ts ;;
   Ok (dset_all str_eqb acc (map (fun s => (ts_name s, s)) (wanted ss)))).
Proof.
  induction ts as [|t ts IH]; intros acc; [reflexivity|]. cbn [all_specs mapM].
  destruct (from_table_metadata drop t) as [s|e]; [|reflexivity]. cbn [bind]. rewrite IH.
  destruct (mapM (from_table_metadata drop) ts) as [ss|e]; [|reflexivity]. cbn [bind]. f_equal.
  unfold wanted. cbn [flat_map]. unfold dset_all.
  cbn [app map]. cbn [fold_left fst snd]. rewrite map_app, map_map, fold_left_app. reflexivity.
Qed.

(** *** dictionaries of tables *)
Definition keyed (d : list (pystr * tablespec)) : Prop := NoDup (map fst d) /\ Forall (fun kv => fst kv = ts_name (snd kv)) d.
Lemma dset_keys_nodup {V} (d : list (pystr * V)) k v : NoDup (map fst d) -> NoDup (map fst (dset str_eqb d k v)).
Proof.
  induction d as [|[k' v'] d IH]; intros H; cbn [dset map fst] in *.
  - repeat constructor. intros [].
  - apply NoDup_cons_iff in H. destruct H as [H1 H2]. destruct (str_eqb k k') eqn:E; cbn [map fst]; [constructor; assumption|].
    constructor; [|apply IH, H2]. intros Hin. apply H1. clear - Hin E.
    induction d as [|[k2 v2] d IH]; cbn [dset map fst] in *.
    + destruct Hin as [->|[]]. rewrite str_eqb_refl in E. discriminate E.
    + destruct (str_eqb k k2); cbn [map fst] in *; [exact Hin|]. destruct Hin as [->|Hin]; [left; reflexivity|right; apply IH, Hin].
Qed.
Lemma dset_In {V} (d : list (pystr * V)) k v x : NoDup (map fst d) -> In x (dset str_eqb d k v) -> x = (k, v) \/ In x d /\ fst x <> k.
Proof.
  induction d as [|[k' v'] d IH]; cbn [dset map fst]; intros N H.
  - destruct H as [<-|[]]. left. reflexivity.
  - apply NoDup_cons_iff in N. destruct N as [N1 N2]. destruct (str_eqb k k') eqn:E.
    + apply str_eqb_eq in E. subst k'. destruct H as [<-|H]; [left; reflexivity|]. right. split; [right; exact H|].
      intros <-. apply N1, in_map, H.
    + destruct H as [<-|H]; [right; split; [left; reflexivity|]|destruct (IH N2 H) as [->|[X Y]]; [left; reflexivity|right; split; [right; exact X|exact Y]]].
      cbn [fst]. intros <-. rewrite str_eqb_refl in E. discriminate E.
Qed.
Lemma dset_key_In {V} (d : list (pystr * V)) k v : In k (map fst (dset str_eqb d k v)).
Proof.
  induction d as [|[k' v'] d IH]; cbn [dset map fst]; [left; reflexivity|].
  destruct (str_eqb k k') eqn:E; [apply str_eqb_eq in E; subst; left; reflexivity|right; exact IH].
Qed.
Lemma dset_key_keep {V} (d : list (pystr * V)) k v x : In x (map fst d) -> In x (map fst (dset str_eqb d k v)).
Proof.
  induction d as [|[k' v'] d IH]; cbn [dset map fst]; intros H; [destruct H|].
  destruct (str_eqb k k'); cbn [map fst]; destruct H as [H|H]; [left; exact H|right; exact H|left; exact H|right; apply IH; exact H].
Qed.
Lemma dset_keyed d s : keyed d -> keyed (dset str_eqb d (ts_name s) s).
Proof.
  intros [N F]. split; [apply dset_keys_nodup, N|]. apply Forall_forall. intros x Hx.
  apply dset_In in Hx; [|exact N]. rewrite Forall_forall in F. destruct Hx as [->|[Hx _]]; [reflexivity|apply F, Hx].
Qed.
Lemma dset_all_spec l : forall d, keyed d ->
  let d' := dset_all str_eqb d (map (fun s => (ts_name s, s)) l) in
  keyed d' /\ (forall x, In x d' -> In x d \/ In (snd x) l) /\
  (forall k, In k (map fst d) -> In k (map fst d')) /\ (forall s, In s l -> In (ts_name s) (map fst d')).
Proof.
  induction l as [|s l IH]; intros d K; cbn [map] in *; unfold dset_all in *.
  - cbn [fold_left]. repeat split; try apply K; auto. intros s [].
  - cbn [fold_left fst snd]. destruct (IH _ (dset_keyed _ s K)) as (A1 & A2 & A3 & A4).
    split; [exact A1|split; [|split]].
    + intros x Hx. destruct (A2 x Hx) as [H|H]; [|right; right; exact H].
      apply dset_In in H; [|apply K]. destruct H as [->|[H _]]; [right; left; reflexivity|left; exact H].
    + intros k Hk. apply A3, dset_key_keep, Hk.
    + intros s' [<-|H]; [apply A3, dset_key_In|apply A4, H].
Qed.

(** *** the loop *)
Lemma ready_iff ord s n : ready ord s n = true <-> forall fk, In fk (ts_fks s) -> In (snd (fst fk)) ord \/ snd (fst fk) = n.
Proof.
  unfold ready. rewrite forallb_forall. split; intros H fk Hf; specialize (H fk Hf).
  - apply orb_true_iff in H. rewrite str_mem_In, str_eqb_eq in H. exact H.
  - apply orb_true_iff. rewrite str_mem_In, str_eqb_eq. exact H.
Qed.
Lemma pop_ready_Some ord tables n s rest : pop_ready ord tables = Some (n, s, rest) ->
  ready ord s n = true /\ exists l1 l2, tables = l1 ++ (n, s) :: l2 /\ rest = l1 ++ l2.
Proof.
  revert n s rest. induction tables as [|[n' s'] tables IH]; intros n s rest H; [discriminate H|]. cbn [pop_ready] in H.
  destruct (ready ord s' n') eqn:R.
  - injection H as <- <- <-. split; [exact R|]. exists [], tables. split; reflexivity.
  - destruct (pop_ready ord tables) as [[[n2 s2] r2]|]; [|discriminate H]. injection H as <- <- <-.
    destruct (IH _ _ _ eq_refl) as (R2 & l1 & l2 & -> & ->). split; [exact R2|]. exists ((n', s') :: l1), l2. split; reflexivity.
Qed.
Lemma pop_ready_None ord tables : pop_ready ord tables = None -> forall n s, In (n, s) tables -> ready ord s n = false.
Proof.
  induction tables as [|[n' s'] tables IH]; cbn [pop_ready]; intros H n s Hin; [destruct Hin|].
  destruct (ready ord s' n') eqn:R; [discriminate H|]. destruct (pop_ready ord tables) as [[[? ?] ?]|]; [discriminate H|].
  destruct Hin as [E|Hin]; [injection E as <- <-; exact R|apply IH; auto].
Qed.
Lemma dset_fresh {V} (d : list (pystr * V)) k v : ~ In k (map fst d) -> dset str_eqb d k v = d ++ [(k, v)].
Proof.
  induction d as [|[k' v'] d IH]; cbn [dset map fst]; intros H; [reflexivity|].
  destruct (str_eqb k k') eqn:E; [apply str_eqb_eq in E; subst; elim H; left; reflexivity|]. cbn [app]. f_equal. apply IH. intros X. apply H. right. exact X.
Qed.

Definition topo (l : list (pystr * tablespec)) : Prop :=
  forall l1 n s l2 fk, l = l1 ++ (n, s) :: l2 -> In fk (ts_fks s) -> snd (fst fk) = n \/ In (snd (fst fk)) (map fst l1).
Lemma topo_snoc l n s : topo l -> ready (map fst l) s n = true -> topo (l ++ [(n, s)]).
Proof.
  intros T R l1 n' s' l2 fk E Hf. destruct l2 as [|x l2] using rev_ind.
  - apply app_inj_tail in E. destruct E as [<- E]. injection E as <- <-. rewrite ready_iff in R. destruct (R fk Hf); auto.
  - clear IHl2. rewrite app_comm_cons, app_assoc in E. apply app_inj_tail in E. destruct E as [E _]. eapply T; eassumption.
Qed.
Lemma order_sound i : forall ord tables l, NoDup (map fst ord ++ map fst tables) -> topo ord -> order_tables i ord tables = Ok l ->
  topo l /\ Permutation l (ord ++ tables) /\ (length tables <= i)%nat.
Proof.
  induction i as [|i IH]; intros ord tables l N T H.
  - destruct tables; [|discriminate H]. cbn in H. injection H as <-. rewrite app_nil_r. auto.
  - destruct tables as [|y tables']; [cbn in H; injection H as <-; rewrite app_nil_r; split; [exact T|split; [apply Permutation_refl|cbn; lia]]|].
    set (tables := y :: tables') in *. cbn [order_tables] in H. unfold tables at 1 in H. cbv iota in H.
    destruct (pop_ready (map fst ord) tables) as [[[n s] rest]|] eqn:E.
    + apply pop_ready_Some in E. destruct E as (R & l1 & l2 & Et & ->).
      assert (Hn : ~ In n (map fst ord)).
      { intros X. rewrite Et, map_app in N. cbn [map fst] in N. rewrite app_assoc in N. apply NoDup_remove_2 in N. apply N. rewrite !in_app_iff. auto. }
      rewrite dset_fresh in H by exact Hn. apply IH in H.
      * destruct H as (H1 & H2 & H3). split; [exact H1|]. split.
        -- rewrite Et. eapply Permutation_trans; [exact H2|]. rewrite <- app_assoc. apply Permutation_app_head.
           cbn [app]. apply Permutation_middle.
        -- rewrite Et, app_length. cbn [length]. rewrite app_length in H3. lia.
      * rewrite map_app. cbn [map fst]. rewrite Et, map_app in N. cbn [map fst] in N.
        rewrite <- app_assoc. cbn [app]. eapply Permutation_NoDup; [|exact N]. apply Permutation_app_head.
        rewrite map_app. apply Permutation_sym, Permutation_middle.
      * apply topo_snoc; [exact T|exact R].
    + exfalso. clear - H E. assert (X : forall k ord, pop_ready (map fst ord) tables = None -> order_tables k ord tables <> Ok l).
      { induction k as [|k IHk]; intros o E0; [discriminate|]. cbn [order_tables]. unfold tables at 1. cbv iota. rewrite E0. apply IHk, E0. }
      apply (X i ord E), H.
Qed.
Lemma order_err i : forall ord tables e, order_tables i ord tables = Err e -> e = ValueError.
Proof.
  induction i as [|i IH]; intros ord tables e H; destruct tables as [|y t]; try discriminate H; cbn [order_tables] in H; [congruence|].
  destruct (pop_ready _ _) as [[[? ?] ?]|]; eauto.
Qed.
Lemma order_total i : forall ord tables, (length tables <= i)%nat ->
  (forall ord' rest, NoDup (map fst ord' ++ map fst rest) -> Permutation (ord' ++ rest) (ord ++ tables) -> rest <> [] -> pop_ready (map fst ord') rest <> None) ->
  NoDup (map fst ord ++ map fst tables) -> exists l, order_tables i ord tables = Ok l.
Proof.
  induction i as [|i IH]; intros ord tables L P N.
  - destruct tables; [eexists; reflexivity|cbn in L; lia].
  - destruct tables as [|y tables']; [eexists; reflexivity|]. set (tables := y :: tables') in *. cbn [order_tables]. unfold tables at 1. cbv iota.
    destruct (pop_ready (map fst ord) tables) as [[[n s] rest]|] eqn:E.
    + apply pop_ready_Some in E. destruct E as (R & l1 & l2 & Et & ->).
      assert (Pm : Permutation ((ord ++ [(n, s)]) ++ l1 ++ l2) (ord ++ tables)).
      { rewrite Et, <- app_assoc. apply Permutation_app_head. cbn [app]. apply Permutation_middle. }
      assert (N' : NoDup (map fst (ord ++ [(n, s)]) ++ map fst (l1 ++ l2))).
      { rewrite <- map_app. rewrite <- map_app in N. eapply Permutation_NoDup; [apply Permutation_map, Permutation_sym, Pm|exact N]. }
      assert (Hn : ~ In n (map fst ord)).
      { intros X. rewrite Et, map_app in N. cbn [map fst] in N. rewrite app_assoc in N. apply NoDup_remove_2 in N. apply N. rewrite !in_app_iff. auto. }
      rewrite dset_fresh by exact Hn. apply IH; [| |exact N'].
      * rewrite Et, app_length in L. cbn [length] in L. rewrite app_length. lia.
      * intros o r N1 P1 R1. apply P; auto. eapply Permutation_trans; [exact P1|exact Pm].
    + exfalso. apply (P ord tables N (Permutation_refl _)); [discriminate|exact E].
Qed.

(** *** a finite acyclic relation has a minimal element *)
Lemma acyclic_minimal {A} (R : A -> A -> Prop) (keys : list A) : keys <> [] -> (forall a, ~ clos_trans _ R a a) ->
  (forall a, In a keys -> exists b, In b keys /\ R a b) -> False.
Proof.
  intros Hk Ac Ex.
  assert (X : forall n, exists x P, In x keys /\ length P = n /\ NoDup (x :: P) /\ incl P keys /\ forall y, In y P -> clos_trans _ R y x).
  { induction n as [|n IH].
    - destruct keys as [|x k]; [contradiction|]. exists x, []. repeat split; auto; try (left; reflexivity); [constructor; [intros []|constructor]|intros ? []|intros ? []].
    - destruct IH as (x & P & Hx & HL & N & I & C). destruct (Ex x Hx) as (z & Hz & Rz). exists z, (x :: P).
      split; [exact Hz|]. split; [cbn; lia|]. split; [|split].
      + constructor; [|exact N]. intros [->|H]; [apply (Ac z), t_step, Rz|]. apply (Ac z). eapply t_trans; [apply C, H|apply t_step, Rz].
      + intros y [<-|H]; [exact Hx|apply I, H].
      + intros y [<-|H]; [apply t_step, Rz|]. eapply t_trans; [apply C, H|apply t_step, Rz]. }
  destruct (X (length keys)) as (x & P & Hx & HL & N & I & _).
  assert (L : (length (x :: P) <= length keys)%nat).
  { apply NoDup_incl_length; [exact N|]. intros y [<-|H]; [exact Hx|apply I, H]. }
  cbn [length] in L. lia.
Qed.

(** *** schema *)
Definition dict_of (ss : list tablespec) : list (pystr * tablespec) := dset_all str_eqb [] (map (fun s => (ts_name s, s)) (wanted ss)).
Lemma dict_of_spec ss : keyed (dict_of ss) /\ (forall x, In x (dict_of ss) -> In (snd x) (wanted ss)) /\
  (forall s, In s (wanted ss) -> In (ts_name s) (map ts_name (map snd (dict_of ss)))).
Proof.
  destruct (dset_all_spec (wanted ss) []) as (K & A & _ & C); [split; [constructor|constructor]|]. fold (dict_of ss) in *.
  split; [exact K|]. split; [intros x Hx; destruct (A x Hx) as [[]|H]; exact H|].
  intros s Hs. assert (E : map ts_name (map snd (dict_of ss)) = map fst (dict_of ss)).
  { rewrite map_map. apply map_ext_in. intros x Hx. destruct K as [_ F]. rewrite Forall_forall in F. symmetry. apply F, Hx. }
  rewrite E. apply C, Hs.
Qed.
Lemma keyed_names d : keyed d -> map ts_name (map snd d) = map fst d.
Proof.
  intros [_ F]. rewrite map_map. apply map_ext_in. intros x Hx. rewrite Forall_forall in F. symmetry. apply F, Hx.
Qed.
Lemma keyed_perm d d' : Permutation d d' -> keyed d -> keyed d'.
Proof.
  intros P [N F]. split; [eapply Permutation_NoDup; [apply Permutation_map, P|exact N]|].
  apply Forall_forall. intros x Hx. rewrite Forall_forall in F. apply F. eapply Permutation_in; [apply Permutation_sym, P|exact Hx].
Qed.
Lemma topo_ordered d : keyed d -> topo d -> ordered (map snd d).
Proof.
  intros K T l1 s l2 fk E Hf. apply map_eq_app in E. destruct E as (d1 & d2 & -> & <- & E2).
  destruct d2 as [|[n s'] d2]; [discriminate E2|]. cbn [map snd] in E2. injection E2 as -> _.
  destruct K as [_ F]. pose proof F as F0. apply Forall_app in F. destruct F as [F1 F2]. apply Forall_cons_iff in F2. destruct F2 as [F2 _]. cbn [fst snd] in F2. subst n.
  destruct (T _ _ _ _ fk eq_refl Hf) as [H|H]; [left; exact H|right].
  assert (X : map ts_name (map snd d1) = map fst d1).
  { rewrite map_map. apply map_ext_in. intros x Hx. rewrite Forall_forall in F1. symmetry. apply F1, Hx. }
  rewrite X. exact H.
Qed.

(** an ordered list refers to nothing missing, and not in a circle *)
Lemma ordered_closed l : ordered l -> closed l.
Proof.
  intros O s fk Hs Hf. apply in_split in Hs. destruct Hs as (l1 & l2 & ->). destruct (O _ _ _ fk eq_refl Hf) as [->|H].
  - apply in_map, in_elt.
  - rewrite map_app, in_app_iff. left. exact H.
Qed.
Lemma ordered_acyclic l : NoDup (map ts_name l) -> ordered l -> acyclic l.
Proof.
  intros N O.
  assert (St : forall a b, refers l a b -> exists l1 l2 l3, map ts_name l = l1 ++ b :: l2 ++ a :: l3).
  { intros a b (Nab & s & fk & Hs & <- & Hf & <-). apply in_split in Hs. destruct Hs as (l1 & l2 & ->).
    destruct (O _ _ _ fk eq_refl Hf) as [E|H]; [congruence|]. apply in_split in H. destruct H as (m1 & m2 & E).
    exists m1, m2, (map ts_name l2). rewrite map_app. cbn [map]. rewrite E, <- app_assoc. reflexivity. }
  assert (Tr : forall a b, clos_trans _ (refers l) a b -> exists l1 l2 l3, map ts_name l = l1 ++ b :: l2 ++ a :: l3).
  { intros a b H. induction H as [a b H|a b c H1 IH1 H2 IH2]; [apply St, H|].
    destruct IH1 as (p1 & p2 & p3 & E1), IH2 as (q1 & q2 & q3 & E2).
    (* b splits the list in one way *)
    assert (U : forall (x : pystr) u v u' v', NoDup (u ++ x :: v) -> u ++ x :: v = u' ++ x :: v' -> u = u' /\ v = v').
    { clear. intros x u. induction u as [|y u IH]; intros v u' v' N E.
      - destruct u' as [|y' u']; [injection E as <-; auto|]. injection E as <- E. exfalso. apply NoDup_cons_iff in N. apply (proj1 N). rewrite E. apply in_elt.
      - destruct u' as [|y' u']; cbn [app] in *.
        + injection E as <- E. exfalso. apply NoDup_cons_iff in N. apply (proj1 N). apply in_elt.
        + injection E as <- E. apply NoDup_cons_iff in N. destruct (IH _ _ _ (proj2 N) E) as [-> ->]. auto. }
    rewrite app_comm_cons, app_assoc in E2. rewrite E1 in E2, N. destruct (U _ _ _ _ _ N E2) as [-> <-].
    exists q1, (q2 ++ b :: p2), p3. rewrite E1, <- !app_assoc. cbn [app]. reflexivity. }
  intros a H. destruct (Tr a a H) as (l1 & l2 & l3 & E). rewrite E in N. apply NoDup_remove_2 in N. apply N.
  rewrite !in_app_iff. right. right. left. reflexivity.
Qed.

Lemma schema_eq i drop ts : schema_passes i drop ts =
  (ss <- mapM (from_table_metadata drop) (map snd (dtables ts)) ;; l <- order_tables i [] (dict_of ss) ;; Ok (map snd l)).
Proof. unfold schema_passes. rewrite all_specs_eq. unfold dict_of. generalize (order_tables i []). intros f. destruct (mapM _ _); reflexivity. Qed.

Theorem schema_sound i drop ts l : schema_passes i drop ts = Ok l -> exists ss d,
  mapM (from_table_metadata drop) (map snd (dtables ts)) = Ok ss /\ dict_of ss = d /\
  Permutation l (map snd d) /\ NoDup (map ts_name l) /\ ordered l /\ (length l <= i)%nat.
Proof.
  rewrite schema_eq. intros H. destruct (mapM _ _) as [ss|] eqn:M; [|discriminate H]. cbn [bind] in H.
  destruct (order_tables i [] (dict_of ss)) as [o|] eqn:E; [|discriminate H]. cbn [bind] in H. injection H as <-.
  exists ss, (dict_of ss). split; [reflexivity|]. split; [reflexivity|].
  destruct (dict_of_spec ss) as (K & _). pose proof K as K0. destruct K as [N F].
  apply order_sound in E; [|exact N|intros [|] ? ? ? ? X; discriminate X]. destruct E as (T & P & L). cbn [app] in P.
  pose proof (keyed_perm _ _ (Permutation_sym P) K0) as Ko.
  split; [apply Permutation_map, P|]. split; [rewrite (keyed_names _ Ko); apply Ko|]. split; [apply topo_ordered; assumption|].
  rewrite map_length, (Permutation_length P). exact L.
Qed.
Lemma refers_perm l l' a b : Permutation l l' -> refers l a b -> refers l' a b.
Proof. intros P (N & s & fk & H & R). split; [exact N|]. exists s, fk. split; [eapply Permutation_in; eassumption|exact R]. Qed.
Lemma refers_tc_perm l l' a b : Permutation l l' -> clos_trans _ (refers l) a b -> clos_trans _ (refers l') a b.
Proof.
  intros P H. induction H as [x y H|x y z H1 IH1 H2 IH2]; [|eapply t_trans; eassumption].
  apply t_step. eapply refers_perm; [exact P|exact H].
Qed.
Lemma acyclic_perm l l' : Permutation l l' -> acyclic l -> acyclic l'.
Proof. intros P A a H. apply (A a). eapply refers_tc_perm; [apply Permutation_sym, P|exact H]. Qed.
Lemma closed_perm l l' : Permutation l l' -> closed l -> closed l'.
Proof.
  intros P A s fk Hs Hf. eapply Permutation_in; [apply Permutation_map, P|]. eapply A; [|exact Hf]. eapply Permutation_in; [apply Permutation_sym, P|exact Hs].
Qed.
Theorem schema_total i drop ts ss : mapM (from_table_metadata drop) (map snd (dtables ts)) = Ok ss ->
  let tables := map snd (dict_of ss) in
  (exists l, schema_passes i drop ts = Ok l) <-> (acyclic tables /\ closed tables /\ (length tables <= i)%nat).
Proof.
  intros M tables. split.
  - intros (l & H). apply schema_sound in H. destruct H as (ss' & d & M' & <- & P & N & O & L). rewrite M in M'. apply Ok_inj in M'. subst ss'.
    fold tables in P. split; [eapply acyclic_perm; [exact P|apply ordered_acyclic; assumption]|].
    split; [eapply closed_perm; [exact P|apply ordered_closed, O]|]. rewrite <- (Permutation_length P). exact L.
  - intros (A & C & L). rewrite schema_eq, M. cbn [bind]. destruct (dict_of_spec ss) as (K & _).
    assert (T : exists l, order_tables i [] (dict_of ss) = Ok l).
    { apply order_total; [unfold tables in L; rewrite map_length in L; exact L| |apply K].
      intros ord rest N P R E. cbn [app] in P. pose proof (keyed_perm _ _ (Permutation_sym P) K) as K2.
      assert (Pt : Permutation (map snd (ord ++ rest)) tables) by (apply Permutation_map, P).
      apply (acyclic_minimal (refers tables) (map fst rest)).
      - intros X. destruct rest; [contradiction|discriminate X].
      - exact A.
      - intros a Ha. apply in_map_iff in Ha. destruct Ha as ([n s] & <- & Ha). cbn [fst].
        pose proof (pop_ready_None _ _ E n s Ha) as Rd. 
        assert (X : exists fk, In fk (ts_fks s) /\ ~ In (snd (fst fk)) (map fst ord) /\ snd (fst fk) <> n).
        { unfold ready in Rd. clear - Rd. induction (ts_fks s) as [|fk l IH]; [discriminate Rd|]. cbn [forallb] in Rd.
          apply andb_false_iff in Rd. destruct Rd as [Rd|Rd].
          - exists fk. split; [left; reflexivity|]. apply orb_false_iff in Rd. destruct Rd as [R1 R2]. apply str_mem_false in R1.
            split; [exact R1|]. intros X. rewrite X, str_eqb_refl in R2. discriminate R2.
          - destruct (IH Rd) as (fk' & H & X). exists fk'. split; [right; exact H|exact X]. }
        destruct X as (fk & Hf & No & Nn).
        assert (Hin : In s tables).
        { eapply Permutation_in; [exact Pt|]. rewrite map_app, in_app_iff. right. apply in_map_iff. exists (n, s). auto. }
        assert (En : n = ts_name s).
        { destruct K2 as [_ F]. rewrite Forall_forall in F. apply (F (n, s)). apply in_app_iff. right. exact Ha. }
        exists (snd (fst fk)). split.
        + pose proof (C s fk Hin Hf) as Hc. assert (Hc' : In (snd (fst fk)) (map fst (ord ++ rest))).
          { rewrite <- (keyed_names _ K2). eapply Permutation_in; [apply Permutation_map, Permutation_sym, Pt|exact Hc]. }
          rewrite map_app, in_app_iff in Hc'. destruct Hc' as [X|X]; [contradiction|exact X].
        + split; [congruence|]. exists s, fk. auto. }
    destruct T as [l ->]. eexists. reflexivity.
Qed.
Theorem schema_err i drop ts ss e : mapM (from_table_metadata drop) (map snd (dtables ts)) = Ok ss -> schema_passes i drop ts = Err e -> e = ValueError.
Proof.
  intros M. rewrite schema_eq, M. cbn [bind]. destruct (order_tables i [] (dict_of ss)) eqn:E; cbn [bind]; intros H; [discriminate H|].
  apply order_err in E. congruence.
Qed.
(** without clashes, the tables are those wanted *)
Lemma dict_of_wanted ss : no_name_clash ss -> forall s, In s (map snd (dict_of ss)) <-> In s (wanted ss).
Proof.
  intros NC s. destruct (dict_of_spec ss) as (K & A & C). split.
  - intros H. apply in_map_iff in H. destruct H as (x & <- & H). apply A, H.
  - intros H. pose proof (C s H) as Hn. apply in_map_iff in Hn. destruct Hn as (s' & E & Hs').
    assert (s' = s); [|subst; exact Hs']. apply NC; [|exact H|exact E]. apply in_map_iff in Hs'. destruct Hs' as (x & <- & Hx). apply A, Hx.
Qed.
Lemma from_table_name drop t s : from_table_metadata drop t = Ok s -> ts_name s = dt_name t.
Proof. unfold from_table_metadata. destruct (add_fks _ _ _ _ _ _); cbn [bind]; intros H; [injection H as <-; reflexivity|discriminate H]. Qed.
Lemma mapM_names drop ts : forall ss, mapM (from_table_metadata drop) ts = Ok ss -> map ts_name ss = map dt_name ts.
Proof.
  induction ts as [|t ts IH]; intros ss H; cbn [mapM] in H; [injection H as <-; reflexivity|].
  destruct (from_table_metadata drop t) as [s|] eqn:E; [|discriminate H]. cbn [bind] in H.
  destruct (mapM _ ts) as [ss'|]; [|discriminate H]. cbn [bind] in H. injection H as <-. cbn [map]. rewrite (IH _ eq_refl), (from_table_name _ _ _ E). reflexivity.
Qed.
Lemma dtables_spec ts : NoDup (map fst (dtables ts)) /\ (forall x, In x (dtables ts) -> fst x = dt_name (snd x) /\ In (snd x) ts) /\
  (forall t, In t ts -> In (dt_name t) (map fst (dtables ts))).
Proof.
  unfold dtables, dset_all.
  assert (X : forall (l : list dtable) d, NoDup (map fst d) -> (forall x, In x d -> fst x = dt_name (snd x)) ->
    let d' := fold_left (fun acc kv => dset str_eqb acc (fst kv) (snd kv)) (map (fun t => (dt_name t, t)) l) d in
    NoDup (map fst d') /\ (forall x, In x d' -> fst x = dt_name (snd x) /\ (In x d \/ In (snd x) l)) /\
    (forall k, In k (map fst d) -> In k (map fst d')) /\ (forall t, In t l -> In (dt_name t) (map fst d'))).
  { induction l as [|t l IH]; intros d N F; cbn [map fold_left fst snd] in *.
    - split; [exact N|]. split; [intros x Hx; split; [apply F, Hx|left; exact Hx]|]. split; [auto|intros ? []].
    - destruct (IH (dset str_eqb d (dt_name t) t)) as (A & B & C & D).
      + apply dset_keys_nodup, N.
      + intros x Hx. apply dset_In in Hx; [|exact N]. destruct Hx as [->|[Hx _]]; [reflexivity|apply F, Hx].
      + split; [exact A|]. split; [|split].
        * intros x Hx. destruct (B x Hx) as [B1 B2]. split; [exact B1|]. destruct B2 as [B2|B2]; [|right; right; exact B2].
          apply dset_In in B2; [|exact N]. destruct B2 as [->|[B2 _]]; [right; left; reflexivity|left; exact B2].
        * intros k Hk. apply C, dset_key_keep, Hk.
        * intros t' [<-|H]; [apply C, dset_key_In|apply D, H]. }
  destruct (X ts []) as (A & B & _ & D); [constructor|intros x []|]. split; [exact A|]. split; [|exact D].
  intros x Hx. destruct (B x Hx) as [B1 [[]|B2]]. auto.
Qed.
Lemma dict_of_many drop ts ss : mapM (from_table_metadata drop) (map snd (dtables ts)) = Ok ss ->
  (length (dtables ts) <= length (map snd (dict_of ss)))%nat.
Proof.
  intros M. destruct (dict_of_spec ss) as (K & _ & C). destruct (dtables_spec ts) as (N & F & _).
  rewrite <- (map_length fst (dtables ts)), <- (map_length ts_name). apply NoDup_incl_length; [exact N|].
  intros k Hk. apply in_map_iff in Hk. destruct Hk as (x & <- & Hx).
  assert (E : In (fst x) (map ts_name ss)).
  { rewrite (mapM_names _ _ _ M), map_map. rewrite (proj1 (F x Hx)). apply (in_map (fun x => dt_name (snd x))), Hx. }
  apply in_map_iff in E. destruct E as (s & <- & Hs). apply C. apply in_flat_map. exists s. split; [exact Hs|left; reflexivity].
Qed.
