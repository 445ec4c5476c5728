(** Grouping of triples (C45). *)
From Verif Require Import PyStr Dsv DsvProofs4 Json Jsonld JsonldSpec JsonldProofs.

Section Group.
Context {V : Type}.
Implicit Types (t : triple V) (ts : list (triple V)) (v : tree V) (vs : list (tree V)).

(** *** lists of the same property *)
Definition one (v : tree V) : bool := match v with One _ => true | _ => false end.
(** what [merge_step] does with the values of one property *)
Fixpoint ext_vs (l : list (tree V)) vs : option (list (tree V)) :=
  match vs with
  | [] => None
  | Many m :: r => Some (Many (m ++ l) :: r)
  | One x :: r => option_map (cons (One x)) (ext_vs l r)
  end.
Definition add_vs vs v : list (tree V) :=
  match v with Many l => match ext_vs l vs with Some m => m | None => vs ++ [v] end | One _ => vs ++ [v] end.
Lemma given_cons p t ts : given p (t :: ts) = (if str_eqb (t_prop t) p then [t_val t] else []) ++ given p ts.
Proof. unfold given. cbn [filter]. destruct (str_eqb (t_prop t) p); reflexivity. Qed.
Lemma given_app p ts ts' : given p (ts ++ ts') = given p ts ++ given p ts'.
Proof. unfold given. rewrite filter_app, map_app. reflexivity. Qed.
Lemma given_extend p q l ts : match extend q l ts with
  | Some m => given p m = (if str_eqb q p then match ext_vs l (given p ts) with Some x => x | None => [] end else given p ts) /\ map t_prop m = map t_prop ts /\ ext_vs l (given q ts) <> None
  | None => ext_vs l (given q ts) = None end.
Proof.
  induction ts as [|t ts IH]; [reflexivity|]. cbn [extend]. destruct (t_val t) as [x|m] eqn:E.
  - destruct (extend q l ts) as [m|]; cbn [option_map]; rewrite !given_cons, E.
    + destruct IH as (I1 & I2 & I3). split; [|split].
      * rewrite I1. destruct (str_eqb q p) eqn:Eq; [|reflexivity]. apply str_eqb_eq in Eq. subst q. destruct (str_eqb (t_prop t) p); [|reflexivity].
        cbn [app ext_vs]. destruct (ext_vs l (given p ts)); [reflexivity|contradiction I3; reflexivity].
      * cbn [map]. rewrite I2. reflexivity.
      * destruct (str_eqb (t_prop t) q); [|exact I3]. cbn [app ext_vs]. destruct (ext_vs l (given q ts)); [discriminate|contradiction I3; reflexivity].
    + destruct (str_eqb (t_prop t) q); [|exact IH]. cbn [app ext_vs]. rewrite IH. reflexivity.
  - destruct (str_eqb (t_prop t) q) eqn:Eq.
    + rewrite !given_cons, Eq, E. cbn [t_prop t_val map app ext_vs]. split; [|split; [reflexivity|discriminate]]. apply str_eqb_eq in Eq. rewrite Eq. destruct (str_eqb q p); reflexivity.
    + destruct (extend q l ts) as [m'|]; cbn [option_map]; rewrite !given_cons, E, Eq; cbn [app].
      * destruct IH as (I1 & I2 & I3). split; [|split; [cbn [map]; rewrite I2; reflexivity|exact I3]]. rewrite I1. destruct (str_eqb q p) eqn:Eqp; [|reflexivity].
        apply str_eqb_eq in Eqp. subst q. rewrite Eq. reflexivity.
      * exact IH.
Qed.
Lemma given_step p m t : given p (merge_step m t) = if str_eqb (t_prop t) p then add_vs (given p m) (t_val t) else given p m.
Proof.
  unfold merge_step. destruct (t_val t) as [x|l] eqn:E.
  - rewrite given_app, given_cons, E. cbn [given filter map]. destruct (str_eqb (t_prop t) p); cbn; rewrite ?app_nil_r; reflexivity.
  - pose proof (given_extend p (t_prop t) l m) as G. destruct (extend (t_prop t) l m) as [m'|].
    + destruct G as (G & _ & N). rewrite G. destruct (str_eqb (t_prop t) p) eqn:Ep; [|reflexivity]. apply str_eqb_eq in Ep. subst p. cbn [add_vs]. destruct (ext_vs l (given (t_prop t) m)); [reflexivity|contradiction N; reflexivity].
    + rewrite given_app, given_cons, E. cbn [given filter map]. destruct (str_eqb (t_prop t) p) eqn:Ep; cbn [app]; [|rewrite app_nil_r; reflexivity].
      apply str_eqb_eq in Ep. subst p. cbn [add_vs]. rewrite G. reflexivity.
Qed.
Lemma given_fold p ts : forall m, given p (fold_left merge_step ts m) = fold_left add_vs (given p ts) (given p m).
Proof.
  induction ts as [|t ts IH]; intros m; [reflexivity|]. cbn [fold_left]. rewrite IH, given_step, given_cons. destruct (str_eqb (t_prop t) p); reflexivity.
Qed.
Lemma ext_none l vs : ext_vs l vs = None <-> forallb one vs = true.
Proof.
  induction vs as [|[x|m] vs IH]; [split; reflexivity| |split; discriminate]. cbn [ext_vs forallb one andb]. rewrite <- IH. destruct (ext_vs l vs); [split; discriminate|split; reflexivity].
Qed.
Lemma ext_app l a m r : forallb one a = true -> ext_vs l (a ++ Many m :: r) = Some (a ++ Many (m ++ l) :: r).
Proof. induction a as [|[x|k] a IH]; intros H; [reflexivity| |discriminate H]. cbn [app ext_vs]. rewrite IH; [reflexivity|exact H]. Qed.
Lemma fold_many vs : forall a m r, forallb one a = true -> fold_left add_vs vs (a ++ Many m :: r) = a ++ Many (m ++ items_in vs) :: r ++ filter one vs.
Proof.
  induction vs as [|[x|l] vs IH]; intros a m r H.
  - cbn. rewrite !app_nil_r. reflexivity.
  - cbn [fold_left add_vs filter one]. unfold items_in at 1. cbn [flat_map app]. fold (items_in vs).
    rewrite <- app_assoc. cbn [app]. rewrite (IH a m (r ++ [One x]) H), <- app_assoc. reflexivity.
  - cbn [fold_left add_vs filter one]. rewrite (ext_app l a m r H), (IH a (m ++ l) r H). unfold items_in at 2. cbn [flat_map]. fold (items_in vs). rewrite app_assoc. reflexivity.
Qed.
Lemma fold_ones vs : forall a, forallb one a = true -> fold_left add_vs vs a = a ++ one_list vs.
Proof.
  induction vs as [|[x|l] vs IH]; intros a H.
  - cbn. rewrite app_nil_r. reflexivity.
  - cbn [fold_left add_vs one_list]. rewrite IH; [rewrite <- app_assoc; reflexivity|]. rewrite forallb_app, H. reflexivity.
  - cbn [fold_left add_vs one_list]. rewrite (proj2 (ext_none l a) H). rewrite (fold_many vs a l [] H). reflexivity.
Qed.
Lemma given_merge p ts : given p (merge ts) = one_list (given p ts).
Proof. unfold merge. rewrite given_fold. rewrite fold_ones; reflexivity. Qed.

(** *** the properties, in the order of their first occurrence *)
Lemma firsts_In x l : In x (firsts l) <-> In x l.
Proof.
  induction l as [|a l IH]; [reflexivity|]. cbn [firsts In]. rewrite filter_In, IH. destruct (str_eqb a x) eqn:E; cbn [negb].
  - apply str_eqb_eq in E. subst. tauto.
  - apply str_eqb_neq in E. intuition congruence.
Qed.
Lemma filter_negb_id x l : ~ In x l -> filter (fun y => negb (str_eqb x y)) l = l.
Proof.
  induction l as [|a l IH]; intros H; [reflexivity|]. cbn [filter]. destruct (str_eqb x a) eqn:E; [apply str_eqb_eq in E; subst; contradiction H; left; reflexivity|].
  cbn [negb]. rewrite IH; [reflexivity|]. intros X. apply H. right. exact X.
Qed.
Lemma filter_comm {A} (f g : A -> bool) l : filter f (filter g l) = filter g (filter f l).
Proof. induction l as [|a l IH]; [reflexivity|]. cbn [filter]. destruct (f a) eqn:Ef, (g a) eqn:Eg; cbn [filter]; rewrite ?Ef, ?Eg, IH; reflexivity. Qed.
Lemma firsts_snoc l x : firsts (l ++ [x]) = if str_mem x l then firsts l else firsts l ++ [x].
Proof.
  induction l as [|a l IH]; [reflexivity|]. cbn [app firsts]. rewrite IH. cbn [str_mem existsb]. destruct (str_eqb x a) eqn:E.
  - apply str_eqb_eq in E. subst a. cbn [orb]. destruct (str_mem x l); [reflexivity|]. rewrite filter_app. cbn [filter]. rewrite str_eqb_refl. cbn [negb]. rewrite app_nil_r. reflexivity.
  - cbn [orb]. fold (str_mem x l). destruct (str_mem x l); [reflexivity|]. rewrite filter_app. cbn [filter].
    replace (str_eqb a x) with false; [reflexivity|]. symmetry. apply str_eqb_neq. apply str_eqb_neq in E. congruence.
Qed.
Lemma firsts_nodup l : NoDup (firsts l).
Proof.
  induction l as [|a l IH]; [constructor|]. cbn [firsts]. constructor.
  - intros X. apply filter_In in X. destruct X as [_ X]. rewrite str_eqb_refl in X. discriminate X.
  - apply NoDup_filter, IH.
Qed.
Lemma props_step m t : firsts (map t_prop (merge_step m t)) = firsts (map t_prop m ++ [t_prop t]).
Proof.
  unfold merge_step. destruct (t_val t) as [x|l] eqn:E; [rewrite map_app; reflexivity|].
  pose proof (given_extend (t_prop t) (t_prop t) l m) as G. destruct (extend (t_prop t) l m) as [m'|]; [|rewrite map_app; reflexivity].
  destruct G as (_ & -> & N). rewrite firsts_snoc. replace (str_mem (t_prop t) (map t_prop m)) with true; [reflexivity|]. symmetry. apply str_mem_In.
  destruct (given (t_prop t) m) as [|v r] eqn:Eg; [contradiction N; reflexivity|]. unfold given in Eg.
  assert (I : In v (map t_val (filter (fun t' => str_eqb (t_prop t') (t_prop t)) m))) by (rewrite Eg; left; reflexivity).
  apply in_map_iff in I. destruct I as (t' & _ & I). apply filter_In in I. destruct I as [I Ep]. apply str_eqb_eq in Ep. rewrite <- Ep. apply in_map, I.
Qed.
Lemma firsts_app_mem l l' x : firsts l = firsts l' -> firsts (l ++ [x]) = firsts (l' ++ [x]).
Proof.
  intros E. rewrite !firsts_snoc, E. replace (str_mem x l) with (str_mem x l'); [reflexivity|].
  destruct (str_mem x l') eqn:E1; symmetry.
  - apply str_mem_In. apply str_mem_In in E1. apply firsts_In. rewrite E. apply firsts_In, E1.
  - apply str_mem_false. apply str_mem_false in E1. intros X. apply E1. apply firsts_In. rewrite <- E. apply firsts_In, X.
Qed.
Lemma props_fold ts : forall m, firsts (map t_prop (fold_left merge_step ts m)) = firsts (map t_prop m ++ map t_prop ts).
Proof.
  induction ts as [|t ts IH]; intros m; [cbn; rewrite app_nil_r; reflexivity|]. cbn [fold_left map]. rewrite IH.
  pose proof (props_step m t) as P. revert P. generalize (map t_prop (merge_step m t)) as a. intros a P.
  replace (map t_prop m ++ t_prop t :: map t_prop ts) with ((map t_prop m ++ [t_prop t]) ++ map t_prop ts) by (rewrite <- app_assoc; reflexivity).
  revert P. generalize (map t_prop m ++ [t_prop t]) as b. generalize (map t_prop ts) as l. clear. intros l b P. induction l as [|x l IHl] using rev_ind; [rewrite !app_nil_r; exact P|].
  rewrite !app_assoc. apply firsts_app_mem. exact IHl.
Qed.
Lemma props_merge ts : firsts (map t_prop (merge ts)) = firsts (map t_prop ts).
Proof. unfold merge. rewrite props_fold. reflexivity. Qed.

(** *** the values of the row *)
Definition put (o : option (tree V)) v : option (tree V) :=
  match o with None => Some v | Some (Many l) => Some (Many (l ++ [v])) | Some (One x) => Some (Many [One x; v]) end.
Lemma dget_add g q v p : dget str_eqb (add_value g q v) p = if str_eqb p q then put (dget str_eqb g p) v else dget str_eqb g p.
Proof.
  unfold add_value. destruct (str_eqb p q) eqn:E.
  - apply str_eqb_eq in E. subst q. destruct (dget str_eqb g p) as [[x|l]|]; rewrite (dget_dset str_eqb str_eqb_eq), str_eqb_refl; reflexivity.
  - destruct (dget str_eqb g q) as [[x|l]|]; rewrite (dget_dset str_eqb str_eqb_eq), E; reflexivity.
Qed.
Lemma keys_dset {A} (g : list (pystr * A)) q (v : A) : map fst (dset str_eqb g q v) = if str_mem q (map fst g) then map fst g else map fst g ++ [q].
Proof.
  induction g as [|[k x] g IH]; [reflexivity|]. cbn [dset map fst str_mem existsb]. destruct (str_eqb q k) eqn:E; cbn [orb map fst]; [apply str_eqb_eq in E; subst; reflexivity|].
  rewrite IH. fold (str_mem q (map fst g)). destruct (str_mem q (map fst g)); reflexivity.
Qed.
Lemma keys_add g q v : map fst (add_value g q v) = if str_mem q (map fst g) then map fst g else map fst g ++ [q].
Proof. unfold add_value. destruct (dget str_eqb g q) as [[x|l]|]; apply keys_dset. Qed.
Definition own_id t : bool := match t_about t with None => str_eqb (t_prop t) (lit "@id") | _ => false end.
Lemma step_own g o t : group_step (g, o) t = if own_id t then (dset str_eqb g (t_prop t) (t_val t), o) else if no_subject t then (add_value g (t_prop t) (t_val t), o) else (g, o ++ [t]).
Proof. reflexivity. Qed.
Lemma own_no t : own_id t = true -> no_subject t = true.
Proof. unfold own_id, no_subject. destruct (t_about t); [discriminate|reflexivity]. Qed.
Lemma group_fold ts : forall g o,
  snd (fold_left group_step ts (g, o)) = o ++ filter (fun t => negb (no_subject t)) ts /\
  (forall l, map fst g = firsts l -> map fst (fst (fold_left group_step ts (g, o))) = firsts (l ++ map t_prop (filter no_subject ts))) /\
  (forall p, (forall t, In t ts -> t_prop t = p -> own_id t = false) ->
     dget str_eqb (fst (fold_left group_step ts (g, o))) p = fold_left put (given p (filter no_subject ts)) (dget str_eqb g p)).
Proof.
  induction ts as [|t ts IH]; intros g o.
  - cbn [fold_left fst snd filter map]. split; [rewrite app_nil_r; reflexivity|]. split; [intros l E; cbn [map]; rewrite app_nil_r; exact E|reflexivity].
  - cbn [fold_left]. rewrite step_own. cbn [filter].
    assert (K : forall l q, map fst g = firsts l -> (if str_mem q (map fst g) then map fst g else map fst g ++ [q]) = firsts (l ++ [q])).
    { intros l q E. rewrite firsts_snoc, E. replace (str_mem q (firsts l)) with (str_mem q l); [reflexivity|]. destruct (str_mem q l) eqn:Eq; symmetry.
      - apply str_mem_In, firsts_In, str_mem_In, Eq.
      - apply str_mem_false. rewrite firsts_In. apply str_mem_false, Eq. }
    destruct (own_id t) eqn:Eo; [|destruct (no_subject t) eqn:En].
    + rewrite (own_no t Eo). cbn [negb]. destruct (IH (dset str_eqb g (t_prop t) (t_val t)) o) as (I1 & I2 & I3). split; [exact I1|]. split.
      * intros l E. etransitivity; [apply (I2 (l ++ [t_prop t])); etransitivity; [apply keys_dset|apply K, E]|rewrite <- app_assoc; reflexivity].
      * intros p Hp. rewrite I3; [|intros t' It'; apply Hp; right; exact It']. rewrite given_cons. destruct (str_eqb (t_prop t) p) eqn:Ep.
        -- apply str_eqb_eq in Ep. rewrite (Hp t (or_introl eq_refl) Ep) in Eo. discriminate Eo.
        -- rewrite (dget_dset str_eqb str_eqb_eq). replace (str_eqb p (t_prop t)) with false; [reflexivity|]. symmetry. apply str_eqb_neq. apply str_eqb_neq in Ep. congruence.
    + cbn [negb]. destruct (IH (add_value g (t_prop t) (t_val t)) o) as (I1 & I2 & I3). split; [exact I1|]. split.
      * intros l E. etransitivity; [apply (I2 (l ++ [t_prop t])); etransitivity; [apply keys_add|apply K, E]|rewrite <- app_assoc; reflexivity].
      * intros p Hp. rewrite I3; [|intros t' It'; apply Hp; right; exact It']. rewrite given_cons, dget_add. destruct (str_eqb (t_prop t) p) eqn:Ep.
        -- apply str_eqb_eq in Ep. subst p. rewrite str_eqb_refl. reflexivity.
        -- replace (str_eqb p (t_prop t)) with false; [reflexivity|]. symmetry. apply str_eqb_neq. apply str_eqb_neq in Ep. congruence.
    + cbn [negb]. destruct (IH g (o ++ [t])) as (I1 & I2 & I3). split; [rewrite I1, <- app_assoc; reflexivity|]. split; [exact I2|].
      intros p Hp. apply I3. intros t' It'. apply Hp. right. exact It'.
Qed.
Lemma put_many vs : forall l, fold_left put vs (Some (Many l)) = Some (Many (l ++ vs)).
Proof. induction vs as [|v vs IH]; intros l; [cbn; rewrite app_nil_r; reflexivity|]. cbn [fold_left put]. rewrite IH, <- app_assoc. reflexivity. Qed.
Definition joined vs : option (tree V) :=
  match vs with [] => None | [v] => Some v | Many l :: r => Some (Many (l ++ r)) | v :: r => Some (Many (v :: r)) end.
Lemma put_joined vs : fold_left put vs None = joined vs.
Proof.
  destruct vs as [|v [|w vs]]; [reflexivity|destruct v; reflexivity|]. cbn [fold_left put joined]. destruct v as [x|l]; cbn [put]; rewrite put_many; [reflexivity|]. rewrite <- app_assoc. reflexivity.
Qed.
Lemma combined_joined vs : combined vs = joined (one_list vs).
Proof. unfold combined, joined. destruct (one_list vs) as [|v [|w r]]; [reflexivity|destruct v; reflexivity|destruct v; reflexivity]. Qed.
(** the '@id' *)
Lemma id_fold ts : forall g o, (forall t, In t ts -> t_prop t = lit "@id" -> no_subject t = true -> own_id t = true) ->
  dget str_eqb (fst (fold_left group_step ts (g, o))) (lit "@id") =
  fold_left (fun _ v => Some v) (given (lit "@id") (filter no_subject ts)) (dget str_eqb g (lit "@id")).
Proof.
  induction ts as [|t ts IH]; intros g o H; [reflexivity|]. cbn [fold_left]. rewrite step_own. cbn [filter].
  assert (H' : forall t', In t' ts -> t_prop t' = lit "@id" -> no_subject t' = true -> own_id t' = true) by (intros t' It'; apply H; right; exact It').
  destruct (own_id t) eqn:Eo; [|destruct (no_subject t) eqn:En].
  - rewrite (own_no t Eo), IH, given_cons by exact H'. unfold own_id in Eo. destruct (t_about t); [discriminate Eo|]. rewrite Eo. cbn [app fold_left].
    rewrite (dget_dset str_eqb str_eqb_eq). apply str_eqb_eq in Eo. rewrite Eo, str_eqb_refl. reflexivity.
  - rewrite IH, given_cons by exact H'. rewrite dget_add. destruct (str_eqb (t_prop t) (lit "@id")) eqn:Ep.
    + apply str_eqb_eq in Ep. rewrite (H t (or_introl eq_refl) Ep En) in Eo. discriminate Eo.
    + replace (str_eqb (lit "@id") (t_prop t)) with false; [reflexivity|]. symmetry. apply str_eqb_neq. apply str_eqb_neq in Ep. congruence.
  - apply IH, H'.
Qed.

(** *** rows whose lists are not shared between subjects *)
Lemma extend_In q l ts m : extend q l ts = Some m -> exists a t0 b k, ts = a ++ t0 :: b /\ t_prop t0 = q /\ t_val t0 = Many k /\
  m = a ++ {| t_about := t_about t0; t_prop := t_prop t0; t_val := Many (k ++ l) |} :: b /\ (forall t, In t a -> t_prop t = q -> one (t_val t) = true).
Proof.
  revert m. induction ts as [|t ts IH]; intros m H; [discriminate H|]. cbn [extend] in H.
  assert (G : option_map (cons t) (extend q l ts) = Some m -> (t_prop t = q -> one (t_val t) = true) -> exists a t0 b k, t :: ts = a ++ t0 :: b /\ t_prop t0 = q /\ t_val t0 = Many k /\
    m = a ++ {| t_about := t_about t0; t_prop := t_prop t0; t_val := Many (k ++ l) |} :: b /\ (forall t, In t a -> t_prop t = q -> one (t_val t) = true)).
  { intros G Ht. destruct (extend q l ts) as [m'|]; [|discriminate G]. injection G as <-. destruct (IH m' eq_refl) as (a & t0 & b & k & -> & E2 & E3 & -> & E5).
    exists (t :: a), t0, b, k. split; [reflexivity|]. split; [exact E2|]. split; [exact E3|]. split; [reflexivity|]. intros t' [<-|It']; [exact Ht|apply E5, It']. }
  destruct (t_val t) as [x|k] eqn:E; [apply G; [exact H|reflexivity]|]. destruct (str_eqb (t_prop t) q) eqn:Eq; [|apply G; [exact H|intros X; apply str_eqb_neq in Eq; contradiction]].
  injection H as <-. apply str_eqb_eq in Eq. exists [], t, ts, k. split; [reflexivity|]. split; [exact Eq|]. split; [exact E|]. split; [reflexivity|]. intros t' [].
Qed.
Lemma extend_first q l a t0 b k : (forall t, In t a -> t_prop t = q -> one (t_val t) = true) -> t_prop t0 = q -> t_val t0 = Many k ->
  extend q l (a ++ t0 :: b) = Some (a ++ {| t_about := t_about t0; t_prop := t_prop t0; t_val := Many (k ++ l) |} :: b).
Proof.
  intros H Ep Ev. induction a as [|t a IH].
  - cbn [app extend]. rewrite Ev, Ep, str_eqb_refl. reflexivity.
  - cbn [app extend]. rewrite IH by (intros t' It'; apply H; right; exact It'). destruct (t_val t) as [x|k'] eqn:E; [reflexivity|]. destruct (str_eqb (t_prop t) q) eqn:Eq; [|reflexivity].
    apply str_eqb_eq in Eq. pose proof (H t (or_introl eq_refl) Eq) as X. rewrite E in X. discriminate X.
Qed.
Lemma extend_none q l ts : (forall t, In t ts -> t_prop t = q -> one (t_val t) = true) <-> extend q l ts = None.
Proof.
  split.
  - intros H. destruct (extend q l ts) as [m|] eqn:E; [|reflexivity]. destruct (extend_In _ _ _ _ E) as (a & t0 & b & k & -> & E2 & E3 & _). exfalso.
    pose proof (H t0 (in_elt t0 a b) E2) as X. rewrite E3 in X. discriminate X.
  - intros H t It Ep. pose proof (given_extend q q l ts) as G. rewrite H in G. apply ext_none in G. rewrite forallb_forall in G. apply G. unfold given. apply in_map. apply filter_In.
    split; [exact It|]. rewrite Ep. apply str_eqb_refl.
Qed.
Section Filter.
Variable f : triple V -> bool.
(** [f] looks at the subject only *)
Hypothesis f_about : forall t t', t_about t = t_about t' -> f t = f t'.
(** lists of the same property are of the same kind of subject *)
Definition kinds ts : Prop := forall t t', In t ts -> In t' ts -> t_prop t = t_prop t' -> one (t_val t) = false -> one (t_val t') = false -> f t = f t'.
Lemma step_filter m t : kinds (m ++ [t]) -> filter f (merge_step m t) = if f t then merge_step (filter f m) t else filter f m.
Proof.
  intros K. unfold merge_step. destruct (t_val t) as [x|l] eqn:E.
  { rewrite filter_app. cbn [filter]. destruct (f t); [reflexivity|apply app_nil_r]. }
  destruct (extend (t_prop t) l m) as [m'|] eqn:Ee.
  - destruct (extend_In _ _ _ _ Ee) as (a & t0 & b & k & -> & E2 & E3 & -> & E5).
    assert (Ef : f t0 = f t). { apply K; [apply in_or_app; left; apply in_or_app; right; left; reflexivity|apply in_or_app; right; left; reflexivity|exact E2|rewrite E3; reflexivity|rewrite E; reflexivity]. }
    rewrite !filter_app. cbn [filter]. rewrite (f_about {| t_about := t_about t0; t_prop := t_prop t0; t_val := Many (k ++ l) |} t0) by reflexivity. rewrite Ef. destruct (f t); [|reflexivity].
    rewrite (extend_first (t_prop t) l (filter f a) t0 (filter f b) k); [reflexivity| |exact E2|exact E3]. intros t' It'. apply filter_In in It'. apply E5, It'.
  - pose proof (proj2 (extend_none _ _ _) Ee) as Ee'. rewrite filter_app. cbn [filter]. destruct (f t); [|apply app_nil_r]. rewrite (proj1 (extend_none (t_prop t) l (filter f m))); [reflexivity|].
    intros t' It'. apply filter_In in It'. apply Ee', It'.
Qed.
(** the triples of [m] have the subjects, properties and kinds of values of triples of [ts] *)
Definition from ts m : Prop := forall t, In t m -> exists t', In t' ts /\ t_about t' = t_about t /\ t_prop t' = t_prop t /\ one (t_val t') = one (t_val t).
Lemma from_kinds ts m : kinds ts -> from ts m -> kinds m.
Proof.
  intros K F t t' It It' Ep E E'. destruct (F t It) as (s & Is & A1 & A2 & A3), (F t' It') as (s' & Is' & A1' & A2' & A3').
  rewrite <- (f_about s t A1), <- (f_about s' t' A1'). apply K; congruence.
Qed.
Lemma step_from ts m t : from ts m -> In t ts -> from ts (merge_step m t).
Proof.
  intros F It t' It'. unfold merge_step in It'.
  assert (G : In t' (m ++ [t]) -> exists s, In s ts /\ t_about s = t_about t' /\ t_prop s = t_prop t' /\ one (t_val s) = one (t_val t')).
  { intros X. apply in_app_or in X. destruct X as [X|[<-|[]]]; [apply F, X|]. exists t. auto. }
  destruct (t_val t) as [x|l] eqn:E; [apply G, It'|]. destruct (extend (t_prop t) l m) as [m'|] eqn:Ee; [|apply G, It'].
  destruct (extend_In _ _ _ _ Ee) as (a & t0 & b & k & -> & E2 & E3 & -> & E5). apply in_app_or in It'. destruct It' as [X|[<-|X]].
  - apply F, in_or_app. left. exact X.
  - destruct (F t0) as (s & Is & A1 & A2 & A3); [apply in_or_app; right; left; reflexivity|]. exists s. cbn [t_about t_prop t_val one]. rewrite E3 in A3. auto.
  - apply F, in_or_app. right. right. exact X.
Qed.
Lemma merge_filter ts : kinds ts -> filter f (merge ts) = merge (filter f ts).
Proof.
  intros K. unfold merge. assert (G : forall l m, (forall t, In t l -> In t ts) -> from ts m -> filter f (fold_left merge_step l m) = fold_left merge_step (filter f l) (filter f m)).
  { induction l as [|t l IH]; intros m Hl F; [reflexivity|]. cbn [fold_left filter]. rewrite IH; [|intros t' It'; apply Hl; right; exact It'|apply step_from; [exact F|apply Hl; left; reflexivity]].
    rewrite step_filter; [destruct (f t); reflexivity|]. apply (from_kinds ts); [exact K|]. intros t' It'. apply in_app_or in It'. destruct It' as [X|[<-|[]]]; [apply F, X|]. exists t. split; [apply Hl; left; reflexivity|auto]. }
  apply G; [auto|]. intros t [].
Qed.
End Filter.
Lemma merge_from ts : from ts (merge ts).
Proof.
  unfold merge. assert (G : forall l m, (forall t, In t l -> In t ts) -> from ts m -> from ts (fold_left merge_step l m)).
  { induction l as [|t l IH]; intros m Hl F; [exact F|]. cbn [fold_left]. apply IH; [intros t' It'; apply Hl; right; exact It'|]. apply step_from; [exact F|apply Hl; left; reflexivity]. }
  apply G; [auto|]. intros t [].
Qed.
Lemma no_subject_about t t' : t_about t = t_about t' -> no_subject t = no_subject t'.
Proof. unfold no_subject. intros ->. reflexivity. Qed.
Lemma one_false v : one v = false <-> is_list v = true.
Proof. destruct v; split; auto; discriminate. Qed.

Lemma group_spec ts : kinds no_subject ts ->
  snd (group ts) = merge (filter (fun t => negb (no_subject t)) ts) /\
  map fst (fst (group ts)) = firsts (map t_prop (filter no_subject ts)) /\
  (forall p, (forall t, In t ts -> t_prop t = p -> own_id t = false) -> dget str_eqb (fst (group ts)) p = combined (given p (filter no_subject ts))) /\
  ((forall t, In t ts -> t_prop t = lit "@id" -> no_subject t = true -> own_id t = true) ->
     dget str_eqb (fst (group ts)) (lit "@id") = match rev (one_list (given (lit "@id") (filter no_subject ts))) with v :: _ => Some v | [] => None end).
Proof.
  intros K. unfold group. destruct (group_fold (merge ts) [] []) as (G1 & G2 & G3). split; [|split; [|split]].
  - etransitivity; [exact G1|]. cbn [app]. apply merge_filter; [intros t t' E; f_equal; apply no_subject_about, E|]. intros t t' It It' Ep E E'. f_equal. apply K; assumption.
  - etransitivity; [apply (G2 []); reflexivity|]. cbn [app]. rewrite (merge_filter no_subject no_subject_about ts K). apply props_merge.
  - intros p Hp. etransitivity; [apply G3|].
    2: { cbn [dget]. rewrite put_joined, combined_joined, (merge_filter no_subject no_subject_about ts K), given_merge. reflexivity. }
    intros t It Ep. destruct (merge_from ts t It) as (s & Is & A1 & A2 & _). unfold own_id. rewrite <- A1, <- A2. apply Hp; congruence.
  - intros H. etransitivity; [apply id_fold|].
    2: { cbn [dget]. rewrite (merge_filter no_subject no_subject_about ts K), given_merge. generalize (one_list (given (lit "@id") (filter no_subject ts))) as l. intros l.
      induction l as [|v l IH] using rev_ind; [reflexivity|]. rewrite fold_left_app, rev_app_distr. reflexivity. }
    intros t It Ep En. destruct (merge_from ts t It) as (s & Is & A1 & A2 & _). unfold own_id. rewrite <- A1, <- A2. apply H; [exact Is|congruence|]. rewrite <- En. apply no_subject_about, A1.
Qed.

(** *** the order of the objects *)
Definition sorted_le (l : list (Z * jobj)) : Prop := forall a x b y c, l = a ++ x :: b ++ y :: c -> (fst x <= fst y)%Z.
Lemma insert_last x l : (forall y, In y l -> (fst y <= fst x)%Z) -> insert_by x l = l ++ [x].
Proof.
  induction l as [|y l IH]; intros H; [reflexivity|]. cbn [insert_by]. destruct (Z.ltb (fst x) (fst y)) eqn:E.
  - apply Z.ltb_lt in E. pose proof (H y (or_introl eq_refl)). lia.
  - rewrite IH; [reflexivity|]. intros z Iz. apply H. right. exact Iz.
Qed.
Lemma insert_mid x a b : (forall y, In y a -> (fst y <= fst x)%Z) -> (forall y, In y b -> (fst x < fst y)%Z) -> insert_by x (a ++ b) = a ++ x :: b.
Proof.
  intros Ha Hb. induction a as [|y a IH].
  - destruct b as [|y b]; [reflexivity|]. cbn [app insert_by]. rewrite (proj2 (Z.ltb_lt _ _) (Hb y (or_introl eq_refl))). reflexivity.
  - cbn [app insert_by]. destruct (Z.ltb (fst x) (fst y)) eqn:E.
    + apply Z.ltb_lt in E. pose proof (Ha y (or_introl eq_refl)). lia.
    + rewrite IH; [reflexivity|]. intros z Iz. apply Ha. right. exact Iz.
Qed.
Lemma sort_first (own : jobj -> bool) objs :
  map snd (sort_by (map (fun io => ((if own (snd io) then -1 else fst io)%Z, snd io)) (enumerate 0 objs))) = filter own objs ++ filter (fun o => negb (own o)) objs.
Proof.
  set (h := fun io : Z * jobj => ((if own (snd io) then -1 else fst io)%Z, snd io)). unfold sort_by.
  assert (G : forall l n a b, (0 <= n)%Z -> (forall y, In y a -> fst y = (-1)%Z) -> (forall y, In y b -> (0 <= fst y < n)%Z) ->
    map snd (fold_left (fun acc x => insert_by x acc) (map h (enumerate n l)) (a ++ b)) = map snd a ++ filter own l ++ map snd b ++ filter (fun o => negb (own o)) l).
  { induction l as [|o l IH]; intros n a b Hn Ha Hb; [cbn; rewrite map_app, app_nil_r; reflexivity|]. cbn [enumerate map fold_left filter]. unfold h at 2. cbn [fst snd]. destruct (own o); cbn [negb].
    - rewrite insert_mid; [|intros y Iy; rewrite (Ha y Iy); cbn; lia|intros y Iy; pose proof (Hb y Iy); cbn; lia].
      replace (a ++ ((-1)%Z, o) :: b) with ((a ++ [((-1)%Z, o)]) ++ b) by (rewrite <- app_assoc; reflexivity).
      rewrite IH; [rewrite map_app, <- app_assoc; reflexivity|lia| |intros y Iy; pose proof (Hb y Iy); lia].
      intros y Iy. apply in_app_or in Iy. destruct Iy as [Iy|[<-|[]]]; [apply Ha, Iy|reflexivity].
    - rewrite insert_last; [|intros y Iy; apply in_app_or in Iy; destruct Iy as [Iy|Iy]; [rewrite (Ha y Iy); cbn; lia|pose proof (Hb y Iy); cbn; lia]].
      rewrite <- app_assoc, IH; [rewrite map_app; cbn [map snd]; rewrite <- app_assoc; reflexivity|lia|exact Ha|].
      intros y Iy. apply in_app_or in Iy. destruct Iy as [Iy|[<-|[]]]; [pose proof (Hb y Iy); lia|cbn; lia]. }
  apply (G objs 0%Z [] []); [lia|intros y []|intros y []].
Qed.
End Group.
