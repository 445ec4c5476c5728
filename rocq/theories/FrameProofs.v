(** Framing (C49). *)
From Coq Require Import Permutation.
From Verif Require Import PyStr Dsv DsvProofs4 Json Jsonld JsonldSpec JsonldProofs TripleProofs.

(** *** lists *)
Lemma perm_flat_map {A B} (f g : A -> list B) l : (forall a, In a l -> Permutation (f a) (g a)) -> Permutation (flat_map f l) (flat_map g l).
Proof. intros H. induction l as [|a l IH]; [constructor|]. cbn [flat_map]. apply Permutation_app; [apply H; left; reflexivity|]. apply IH. intros x Ix. apply H. right. exact Ix. Qed.
Lemma flat_map_cons_perm {A B} (f : A -> B) (g : A -> list B) l : Permutation (map f l ++ flat_map g l) (flat_map (fun a => f a :: g a) l).
Proof.
  induction l as [|a l IH]; [constructor|]. cbn [map flat_map app]. constructor. rewrite !app_assoc. rewrite (Permutation_app_comm (map f l) (g a)), <- app_assoc. apply Permutation_app_head, IH.
Qed.
Lemma flat_map_flat_map {A B C} (f : A -> list B) (g : B -> list C) l : flat_map g (flat_map f l) = flat_map (fun a => flat_map g (f a)) l.
Proof. induction l as [|a l IH]; [reflexivity|]. cbn [flat_map]. rewrite flat_map_app, IH. reflexivity. Qed.
Lemma count_filter (f : pystr -> bool) l : (forall x, f x = true -> count_str x l = 1%nat) -> NoDup (filter f l).
Proof.
  intros H. assert (G : forall l', (forall x, f x = true -> (count_str x l' <= 1)%nat) -> NoDup (filter f l')).
  { induction l' as [|a l' IH]; intros H'; [constructor|].
    assert (S : forall x, f x = true -> (count_str x l' <= 1)%nat).
    { intros x Fx. specialize (H' x Fx). unfold count_str in *. cbn [filter] in H'. destruct (str_eqb x a); cbn [length] in H'; lia. }
    cbn [filter]. destruct (f a) eqn:Ea; [|apply IH, S]. constructor; [|apply IH, S]. intros I. apply filter_In in I. destruct I as [I _].
    specialize (H' a Ea). unfold count_str in H'. cbn [filter] in H'. rewrite str_eqb_refl in H'. cbn [length] in H'.
    assert (X : In a (filter (str_eqb a) l')) by (apply filter_In; split; [exact I|apply str_eqb_refl]). destruct (filter (str_eqb a) l'); [destruct X|cbn [length] in H'; lia]. }
  apply G. intros x Fx. rewrite (H x Fx). lia.
Qed.
Lemma NoDup_app2 {A} (a b : list A) : NoDup a -> NoDup b -> (forall x, In x a -> ~ In x b) -> NoDup (a ++ b).
Proof.
  intros Ha Hb D. induction a as [|x a IH]; [exact Hb|]. inversion Ha as [|? ? N1 N2]; subst. cbn [app]. constructor.
  - intros X. apply in_app_or in X. destruct X as [X|X]; [contradiction|]. apply (D x); [left; reflexivity|exact X].
  - apply IH; [exact N2|]. intros y Iy. apply D. right. exact Iy.
Qed.
Lemma NoDup_app_inv {A} (a b : list A) : NoDup (a ++ b) -> NoDup a /\ NoDup b /\ (forall x, In x a -> ~ In x b).
Proof.
  induction a as [|x a IH]; intros H; [split; [constructor|split; [exact H|intros x []]]|]. cbn [app] in H. inversion H as [|? ? N1 N2]; subst. destruct (IH N2) as (I1 & I2 & I3).
  split; [|split; [exact I2|]].
  - constructor; [|exact I1]. intros X. apply N1. apply in_or_app. left. exact X.
  - intros y [<-|Iy]; [|apply I3, Iy]. intros X. apply N1. apply in_or_app. right. exact X.
Qed.
Lemma NoDup_flat_map_sub {A B} (f : A -> list B) (big l : list A) : NoDup (flat_map f big) -> NoDup l -> incl l big -> NoDup (flat_map f l).
Proof.
  revert big. induction l as [|a l IH]; intros big Hb Hl Hi; [constructor|]. inversion Hl as [|? ? N1 N2]; subst. cbn [flat_map].
  destruct (in_split a big (Hi a (or_introl eq_refl))) as (b1 & b2 & ->).
  assert (Hb' : NoDup (f a ++ flat_map f (b1 ++ b2))).
  { eapply Permutation_NoDup; [|exact Hb]. rewrite !flat_map_app. cbn [flat_map]. rewrite !app_assoc. apply Permutation_app_tail. apply Permutation_app_comm. }
  apply NoDup_app_inv in Hb'. destruct Hb' as (A1 & A2 & A3).
  assert (Hi' : incl l (b1 ++ b2)).
  { intros y Iy. pose proof (Hi y (or_intror Iy)) as X. apply in_app_or in X. apply in_or_app. destruct X as [X|[X|X]]; [left; exact X|subst; contradiction|right; exact X]. }
  apply NoDup_app2; [exact A1|apply (IH _ A2 N2 Hi')|].
  intros x Ix Ix'. apply (A3 x Ix). apply in_flat_map in Ix'. destruct Ix' as (y & Iy & Hy). apply in_flat_map. exists y. split; [apply Hi', Iy|exact Hy].
Qed.
Lemma dset_same {A} (l : list (pystr * A)) k v : dget str_eqb l k = Some v -> dset str_eqb l k v = l.
Proof.
  induction l as [|[k' v'] l IH]; [discriminate|]. cbn [dget dset]. destruct (str_eqb k k') eqn:E; [intros H; injection H as ->; apply str_eqb_eq in E; subst; reflexivity|].
  intros H. rewrite (IH H). reflexivity.
Qed.
Lemma dset_all_app {A} (d a b : list (pystr * A)) : dset_all str_eqb d (a ++ b) = dset_all str_eqb (dset_all str_eqb d a) b.
Proof. revert d. induction a as [|[k v] a IH]; intros d; [reflexivity|]. cbn [app]. unfold dset_all in *. cbn [fold_left]. apply IH. Qed.
Lemma update_first {A} k (v : A) a b : NoDup (map fst (a ++ (k, v) :: b)) -> dset_all str_eqb [(k, v)] (a ++ (k, v) :: b) = (k, v) :: a ++ b.
Proof.
  intros N. rewrite map_app in N. cbn [map fst] in N. pose proof (NoDup_remove _ _ _ N) as [N1 N2].
  rewrite dset_all_app. rewrite (dset_all_new str_eqb str_eqb_eq a [(k, v)]).
  2: { cbn [map fst app]. constructor; [intros X; apply N2; apply in_or_app; left; exact X|]. apply NoDup_app_inv in N1. apply N1. }
  unfold dset_all. cbn [fold_left fst snd]. rewrite dset_same by (cbn; rewrite str_eqb_refl; reflexivity). fold (dset_all str_eqb ([(k, v)] ++ a) b).
  rewrite (dset_all_new str_eqb str_eqb_eq b ([(k, v)] ++ a)); [reflexivity|]. rewrite map_app. cbn [map fst app]. constructor; [exact N2|exact N1].
Qed.

Section Frame.
Variable data : list jobj.
Hypothesis F : flat data.
Variable ids : list pystr.
Hypothesis Eids : map id_of data = map Some ids.
Hypothesis Nids : NoDup ids.

Lemma items_combine : items_of data = combine ids data.
Proof.
  unfold items_of. assert (E : flat_map (fun o => match id_of o with Some i => [(i, o)] | None => [] end) data = combine ids data).
  { clear F Nids. revert ids Eids. induction data as [|o d IH]; intros l E; destruct l as [|i l]; try discriminate E; [reflexivity|]. cbn [map] in E. injection E as E1 E2. cbn [flat_map combine]. rewrite E1, (IH l E2). reflexivity. }
  rewrite E. apply dset_all_nodup. replace (map fst (combine ids data)) with ids; [exact Nids|].
  assert (L : length ids = length data) by (rewrite <- (map_length Some ids), <- Eids, map_length; reflexivity). clear -L. revert L. generalize data. induction ids as [|i l IH]; intros d L; [reflexivity|].
  destruct d as [|o d]; [discriminate L|]. cbn [combine map fst]. rewrite <- IH; [reflexivity|]. injection L as L. exact L.
Qed.
Lemma item_iff r o : dget str_eqb (items_of data) r = Some o <-> In o data /\ id_of o = Some r.
Proof.
  rewrite items_combine. clear F. revert ids Eids Nids. induction data as [|o' d IH]; intros l E N; destruct l as [|i l]; try discriminate E; [split; [discriminate|intros [[] _]]|].
  cbn [map] in E. injection E as E1 E2. inversion N as [|? ? N1 N2]; subst. cbn [combine dget]. destruct (str_eqb r i) eqn:Er.
  - apply str_eqb_eq in Er. subst r. split.
    + intros H. injection H as ->. split; [left; reflexivity|exact E1].
    + intros [[->|Io] Ei]; [reflexivity|]. exfalso. apply N1. assert (X : In (id_of o) (map Some l)) by (rewrite <- E2; apply in_map, Io). rewrite Ei in X. apply in_map_iff in X. destruct X as (x & X1 & X2). injection X1 as ->. exact X2.
  - rewrite (IH l E2 N2). apply str_eqb_neq in Er. split; [intros [A B]; split; [right; exact A|exact B]|]. intros [[->|Io] Ei]; [congruence|split; assumption].
Qed.
Lemma item_ids r : In r ids <-> exists o, dget str_eqb (items_of data) r = Some o.
Proof.
  split.
  - intros I. assert (X : In (Some r) (map id_of data)) by (rewrite Eids; apply in_map, I). apply in_map_iff in X. destruct X as (o & E & Io). exists o. apply item_iff. split; assumption.
  - intros [o H]. apply item_iff in H. destruct H as [Io E]. assert (X : In (Some r) (map Some ids)) by (rewrite <- Eids, <- E; apply in_map, Io). apply in_map_iff in X. destruct X as (x & X1 & X2). injection X1 as ->. exact X2.
Qed.
Lemma id_key o r : id_of o = Some r -> dget str_eqb o (lit "@id") = Some (JStr r).
Proof. unfold id_of. destruct (dget str_eqb o (lit "@id")) as [[| | | |[|c s]| |]|]; try discriminate. intros H. injection H as <-. reflexivity. Qed.
Lemma ref_id r : r <> [] -> id_of [(lit "@id", JStr r)] = Some r.
Proof. destruct r; [congruence|reflexivity]. Qed.
(** values of items *)
Lemma value_cases o k v : In o data -> In (k, v) o -> (k = lit "@id" /\ exists s, v = JStr s) \/ (k <> lit "@id" /\ exists l, v = JList l /\ Forall (fun x => is_ref x \/ is_literal x) l).
Proof.
  intros Io Ik. destruct (str_eq_dec k (lit "@id")) as [->|N]; [left|right; split; [exact N|apply (fl_values _ F o k v Io Ik N)]]. split; [reflexivity|].
  assert (X : exists r, id_of o = Some r).
  { assert (Y : In (id_of o) (map Some ids)) by (rewrite <- Eids; apply in_map, Io). apply in_map_iff in Y. destruct Y as (r & E & _). exists r. symmetry. exact E. }
  destruct X as [r E]. apply id_key in E. exists r. destruct (fl_props _ F o Io) as [_ N]. clear -E N Ik. induction o as [|[k' v'] o IH]; [destruct Ik|]. cbn [dget] in E. cbn [map fst] in N. inversion N as [|? ? N1 N2]; subst.
  destruct (str_eqb (lit "@id") k') eqn:Ek.
  - apply str_eqb_eq in Ek. subst k'. injection E as ->. destruct Ik as [Ik|Ik]; [congruence|]. exfalso. apply N1. apply (in_map fst) in Ik. exact Ik.
  - destruct Ik as [Ik|Ik]; [injection Ik as -> ->; rewrite str_eqb_refl in Ek; discriminate Ek|]. apply IH; assumption.
Qed.
Definition spec_refs (x : json) : list pystr := match x with JObj [(k, JStr r)] => if str_eqb k (lit "@id") then [r] else [] | _ => [] end.
Lemma lit_id kvs : dget str_eqb kvs (lit "@id") = None -> id_of kvs = None.
Proof. unfold id_of. intros ->. reflexivity. Qed.
Lemma spec_refs_eq x : is_ref x \/ is_literal x -> ref_of x = spec_refs x.
Proof.
  intros [(r & N & ->)|(kvs & -> & E & H)].
  - cbn [ref_of]. rewrite (ref_id r N). reflexivity.
  - cbn [ref_of]. rewrite (lit_id _ E). destruct kvs as [|[k v] [|kv kvs]]; [reflexivity| |destruct v; reflexivity]. destruct v; try reflexivity. cbn [spec_refs]. destruct (str_eqb k (lit "@id")) eqn:Ek; [|reflexivity].
    apply str_eqb_eq in Ek. subst k. discriminate E.
Qed.
Lemma flat_map_same {A B} (f g : A -> list B) l : (forall a, In a l -> f a = g a) -> flat_map f l = flat_map g l.
Proof. intros H. induction l as [|a l IH]; [reflexivity|]. cbn [flat_map]. rewrite (H a (or_introl eq_refl)), IH; [reflexivity|]. intros x Ix. apply H. right. exact Ix. Qed.
Lemma refs_spec o : In o data -> refs_of o = refers_to o.
Proof.
  intros Io. unfold refs_of, refers_to. apply flat_map_same. intros [k v] Ik. cbn [snd]. destruct (value_cases o k v Io Ik) as [(_ & s & ->)|(_ & l & -> & Fl)]; [reflexivity|].
  cbn [elements]. rewrite Forall_forall in Fl. apply flat_map_same. intros x Ix. apply spec_refs_eq, Fl, Ix.
Qed.
Lemma all_refs_spec : flat_map refs_of data = flat_map refers_to data.
Proof. apply flat_map_same. intros o Io. apply refs_spec, Io. Qed.
Lemma inlined_single r : inlined data r = true <-> single data r.
Proof.
  unfold inlined, single, count_str. rewrite all_refs_spec. split.
  - intros H. apply andb_prop in H. destruct H as [H1 H2]. apply Nat.eqb_eq in H1. split; [exact H1|]. destruct (dget str_eqb (items_of data) r) as [o|] eqn:E; [|discriminate H2]. exists o. apply item_iff, E.
  - intros [H1 (o & Ho)]. apply item_iff in Ho. rewrite Ho. apply andb_true_intro. split; [apply Nat.eqb_eq, H1|reflexivity].
Qed.

(** *** the forest of the items *)
Definition refs_at (i : pystr) : list pystr := match dget str_eqb (items_of data) i with Some o => refs_of o | None => [] end.
Definition children (i : pystr) : list pystr := filter (inlined data) (refs_at i).
Fixpoint below (n : nat) (i : pystr) : list pystr := i :: match n with 0%nat => [] | S n' => flat_map (below n') (children i) end.
Definition roots : list pystr := filter (fun i => negb (inlined data i)) ids.
Definition all n := flat_map (below n) roots.
Lemma below_S n i : below (S n) i = i :: flat_map (below n) (children i).
Proof. reflexivity. Qed.
Lemma children_ids i c : In c (children i) -> In c ids /\ inlined data c = true.
Proof. intros H. apply filter_In in H. destruct H as [_ H]. split; [|exact H]. apply inlined_single in H. destruct H as [_ (o & Ho)]. apply item_ids. exists o. apply item_iff, Ho. Qed.
Lemma refs_all : flat_map refs_at ids = flat_map refs_of data.
Proof.
  assert (G : forall l d, map id_of d = map Some l -> (forall o, In o d -> In o data) -> flat_map refs_at l = flat_map refs_of d).
  { induction l as [|i l IH]; intros d E S; destruct d as [|o d]; try discriminate E; [reflexivity|]. cbn [map] in E. injection E as E1 E2. cbn [flat_map]. rewrite (IH d E2); [|intros o' Io'; apply S; right; exact Io'].
    f_equal. unfold refs_at. rewrite (proj2 (item_iff i o)); [reflexivity|]. split; [apply S; left; reflexivity|exact E1]. }
  apply G; [exact Eids|auto].
Qed.
Lemma children_nodup : NoDup (flat_map children ids).
Proof.
  assert (E : flat_map children ids = filter (inlined data) (flat_map refs_at ids)).
  { unfold children. generalize ids as l. induction l as [|i l IH]; [reflexivity|]. cbn [flat_map]. rewrite filter_app, IH. reflexivity. }
  rewrite E, refs_all. apply count_filter. intros x H. apply andb_prop in H. apply Nat.eqb_eq, H.
Qed.
Lemma children_below n : forall i, Permutation (flat_map (below n) (children i)) (flat_map children (below n i)).
Proof.
  induction n as [|n IH]; intros i.
  - cbn [below flat_map]. rewrite app_nil_r. induction (children i) as [|c l IHl]; [constructor|]. cbn [flat_map app]. constructor. exact IHl.
  - rewrite (below_S n i). cbn [flat_map]. rewrite flat_map_flat_map.
    rewrite <- (perm_flat_map (fun c => flat_map (below n) (children c)) (fun a => flat_map children (below n a)) (children i)); [|intros c _; apply IH].
    symmetry. replace (children i) with (map (fun c => c) (children i)) at 1 by apply map_id. apply (flat_map_cons_perm (fun c => c) (fun c => flat_map (below n) (children c))).
Qed.
Lemma all_S n : Permutation (all (S n)) (roots ++ flat_map children (all n)).
Proof.
  unfold all. rewrite flat_map_flat_map.
  rewrite <- (perm_flat_map (fun a => flat_map (below n) (children a)) (fun a => flat_map children (below n a)) roots); [|intros c _; apply children_below].
  symmetry. replace roots with (map (fun c => c) roots) at 1 by apply map_id. apply (flat_map_cons_perm (fun c => c) (fun c => flat_map (below n) (children c))).
Qed.
Lemma all_0 : all 0 = roots.
Proof. unfold all. cbn [below]. induction roots as [|r l IH]; [reflexivity|]. cbn [flat_map app]. rewrite IH. reflexivity. Qed.
Lemma roots_ids : incl roots ids.
Proof. intros x Ix. apply filter_In in Ix. apply Ix. Qed.
Lemma all_ids n : NoDup (all n) /\ incl (all n) ids.
Proof.
  induction n as [|n [N I]]; [rewrite all_0; split; [apply NoDup_filter, Nids|apply roots_ids]|]. split.
  - apply (Permutation_NoDup (Permutation_sym (all_S n))). apply NoDup_app2; [apply NoDup_filter, Nids|apply (NoDup_flat_map_sub children ids); [apply children_nodup|exact N|exact I]|].
    intros x Ix Ix'. apply filter_In in Ix. destruct Ix as [_ Ix]. apply in_flat_map in Ix'. destruct Ix' as (y & _ & Iy). apply children_ids in Iy. destruct Iy as [_ Iy]. rewrite Iy in Ix. discriminate Ix.
  - intros x Ix. apply (Permutation_in _ (all_S n)) in Ix. apply in_app_or in Ix. destruct Ix as [Ix|Ix]; [apply roots_ids, Ix|]. apply in_flat_map in Ix. destruct Ix as (y & _ & Iy). apply (children_ids _ _ Iy).
Qed.
Lemma all_mono n : incl (all n) (all (S n)).
Proof.
  induction n as [|n IH]; intros x Ix; apply (Permutation_in _ (Permutation_sym (all_S _))).
  - rewrite all_0 in Ix. apply in_or_app. left. exact Ix.
  - apply (Permutation_in _ (all_S n)) in Ix. apply in_app_or in Ix. apply in_or_app. destruct Ix as [Ix|Ix]; [left; exact Ix|right]. apply in_flat_map in Ix. destruct Ix as (y & Iy & Hy). apply in_flat_map. exists y. split; [apply IH, Iy|exact Hy].
Qed.
Lemma root_reached x : In x roots -> reached data x.
Proof.
  intros Ix. apply filter_In in Ix. destruct Ix as [Ix Nx]. apply item_ids in Ix. destruct Ix as [o Ho]. apply item_iff in Ho. apply (reached_root data o); [apply Ho|apply Ho|]. intros S. apply inlined_single in S. rewrite S in Nx. discriminate Nx.
Qed.
Lemma child_spec i c : In c (children i) <-> exists o, In o data /\ id_of o = Some i /\ In c (refers_to o) /\ single data c.
Proof.
  unfold children, refs_at. rewrite filter_In, inlined_single. split.
  - intros [H S]. destruct (dget str_eqb (items_of data) i) as [o|] eqn:E; [|destruct H]. apply item_iff in E. exists o. split; [apply E|]. split; [apply E|]. rewrite <- refs_spec by apply E. auto.
  - intros (o & Io & Eo & Ic & S). rewrite (proj2 (item_iff i o) (conj Io Eo)), (refs_spec o Io). auto.
Qed.
Lemma all_reached n : forall x, In x (all n) -> reached data x.
Proof.
  induction n as [|n IH]; intros x Ix; [rewrite all_0 in Ix; apply root_reached, Ix|]. apply (Permutation_in _ (all_S n)) in Ix. apply in_app_or in Ix. destruct Ix as [Ix|Ix]; [apply root_reached, Ix|].
  apply in_flat_map in Ix. destruct Ix as (y & Iy & Hy). apply child_spec in Hy. destruct Hy as (o & A & B & C & D). apply (reached_step data o y x A B (IH y Iy) C D).
Qed.
Definition closed n := incl (all (S n)) (all n).
Lemma closed_reached n : closed n -> forall x, reached data x -> In x (all n).
Proof.
  intros Cl x R. induction R as [o i A B S|o j i A B R IH C D]; apply Cl; apply (Permutation_in _ (Permutation_sym (all_S n))); apply in_or_app.
  - left. apply filter_In. split; [apply item_ids; exists o; apply item_iff; auto|]. destruct (inlined data i) eqn:E; [apply inlined_single in E; contradiction|reflexivity].
  - right. apply in_flat_map. exists j. split; [exact IH|]. apply child_spec. exists o. auto.
Qed.
Lemma incl_dec (l m : list pystr) : incl l m \/ exists x, In x l /\ ~ In x m.
Proof.
  induction l as [|a l IH]; [left; intros x []|]. destruct (in_dec str_eq_dec a m) as [I|N]; [|right; exists a; split; [left; reflexivity|exact N]].
  destruct IH as [IH|(x & Ix & Nx)]; [left; intros y [<-|Iy]; auto|right; exists x; split; [right; exact Ix|exact Nx]].
Qed.
Lemma closed_mono n : closed n -> closed (S n).
Proof.
  intros C x Ix. apply (Permutation_in _ (all_S (S n))) in Ix. apply (Permutation_in _ (Permutation_sym (all_S n))). apply in_app_or in Ix. apply in_or_app. destruct Ix as [Ix|Ix]; [left; exact Ix|right].
  apply in_flat_map in Ix. destruct Ix as (y & Iy & Hy). apply in_flat_map. exists y. split; [apply C, Iy|exact Hy].
Qed.
Lemma closed_or n : closed n \/ (n <= length (all n))%nat /\ (n < length (all (S n)))%nat.
Proof.
  assert (G : forall n, closed n \/ (length (all n) < length (all (S n)))%nat).
  { intros m. destruct (incl_dec (all (S m)) (all m)) as [I|(x & Ix & Nx)]; [left; exact I|right].
    assert (L : (length (x :: all m) <= length (all (S m)))%nat); [|exact L]. apply NoDup_incl_length; [constructor; [exact Nx|apply all_ids]|]. intros y [<-|Iy]; [exact Ix|apply all_mono, Iy]. }
  induction n as [|n [IH|[IH1 IH2]]]; [|left; apply closed_mono, IH|].
  - destruct (G 0%nat) as [C|L]; [left; exact C|right; split; lia].
  - destruct (G (S n)) as [C|L]; [left; exact C|right; split; lia].
Qed.
Lemma ids_length : length ids = length data.
Proof. rewrite <- (map_length Some ids), <- Eids, map_length. reflexivity. Qed.
Lemma closed_all : closed (length data).
Proof.
  destruct (closed_or (length data)) as [C|[_ L]]; [exact C|]. exfalso. destruct (all_ids (S (length data))) as [N I]. pose proof (NoDup_incl_length N I) as X. rewrite ids_length in X. lia.
Qed.
Lemma all_iff x : In x (all (length data)) <-> reached data x.
Proof. split; [apply all_reached|apply closed_reached, closed_all]. Qed.

(** *** the objects *)
Definition exv (n : nat) (v : json) : json :=
  match v with
  | JObj w => match id_of w with
              | Some r => if inlined data r then match dget str_eqb (items_of data) r with Some i => JObj (dset_all str_eqb w (expand data n i)) | None => v end else v
              | None => v
              end
  | _ => v
  end.
Lemma expand_S n o : expand data (S n) o = map (fun kv => (fst kv, match snd kv with JList l => JList (map (exv n) l) | v => exv n v end)) o.
Proof. reflexivity. Qed.
Lemma exv_lit n x : is_literal x -> exv n x = x.
Proof. intros (kvs & -> & E & _). cbn [exv]. rewrite (lit_id _ E). reflexivity. Qed.
Lemma exv_kept n r : r <> [] -> inlined data r = false -> exv n (JObj [(lit "@id", JStr r)]) = JObj [(lit "@id", JStr r)].
Proof. intros N E. unfold exv. rewrite (ref_id r N), E. reflexivity. Qed.
Lemma expand_keys n o : map fst (expand data n o) = map fst o.
Proof. destruct n; [reflexivity|]. rewrite expand_S, map_map. reflexivity. Qed.
Lemma expand_id n o i : id_of o = Some i -> In (lit "@id", JStr i) (expand data n o).
Proof.
  intros E. apply id_key, dget_In_pair in E. destruct n; [exact E|]. rewrite expand_S. apply (in_map (fun kv => (fst kv, match snd kv with JList l => JList (map (exv n) l) | v => exv n v end))) in E. exact E.
Qed.
Lemma exv_inlined n r o : In o data -> id_of o = Some r -> inlined data r = true ->
  exists a b, expand data n o = a ++ (lit "@id", JStr r) :: b /\ exv n (JObj [(lit "@id", JStr r)]) = JObj ((lit "@id", JStr r) :: a ++ b).
Proof.
  intros Io Eo In_. destruct (in_split _ _ (expand_id n o r Eo)) as (a & b & Eab). exists a, b. split; [exact Eab|].
  assert (Nr : r <> []). { intros ->. unfold id_of in Eo. destruct (dget str_eqb o (lit "@id")) as [[| | | |[|c s]| |]|]; discriminate Eo. }
  unfold exv. rewrite (ref_id r Nr), In_, (proj2 (item_iff r o) (conj Io Eo)), Eab. rewrite update_first; [reflexivity|]. rewrite <- Eab, expand_keys. apply (fl_props _ F o Io).
Qed.
Lemma id_of_In kvs i : NoDup (map fst kvs) -> In (lit "@id", JStr i) kvs -> i <> [] -> id_of kvs = Some i.
Proof.
  intros N I Ni. unfold id_of. replace (dget str_eqb kvs (lit "@id")) with (Some (JStr i)); [destruct i; [congruence|reflexivity]|]. symmetry.
  induction kvs as [|[k v] kvs IH]; [destruct I|]. cbn [map fst] in N. inversion N as [|? ? N1 N2]; subst. cbn [dget]. destruct (str_eqb (lit "@id") k) eqn:E.
  - apply str_eqb_eq in E. subst k. destruct I as [I|I]; [injection I as ->; reflexivity|]. exfalso. apply N1. apply (in_map fst) in I. exact I.
  - destruct I as [I|I]; [injection I as -> _; rewrite str_eqb_refl in E; discriminate E|]. apply IH; assumption.
Qed.
Lemma id_nonempty o i : id_of o = Some i -> i <> [].
Proof. intros Eo ->. unfold id_of in Eo. destruct (dget str_eqb o (lit "@id")) as [[| | | |[|c s]| |]|]; discriminate Eo. Qed.
Definition inner (kvs : list (pystr * json)) : list pystr := flat_map (fun kv => nodes (snd kv)) kvs.
Lemma nodes_item kvs i : NoDup (map fst kvs) -> In (lit "@id", JStr i) kvs -> i <> [] -> (length kvs >= 2)%nat -> nodes (JObj kvs) = i :: inner kvs.
Proof.
  intros N I Ni L. cbn [nodes]. rewrite (id_of_In kvs i N I Ni). destruct kvs as [|kv [|kv' kvs]]; [cbn in L; lia|cbn in L; lia|]. reflexivity.
Qed.
Lemma nodes_lit x : is_literal x -> nodes x = [].
Proof.
  intros (kvs & -> & E & H). cbn [nodes]. rewrite (lit_id _ E). cbn [app]. clear E. induction kvs as [|[k v] kvs IH]; [reflexivity|]. cbn [flat_map snd]. rewrite IH; [|intros kv Ik; apply H; right; exact Ik].
  pose proof (H (k, v) (or_introl eq_refl)) as X. destruct v; try reflexivity; destruct X.
Qed.
Lemma nodes_ref r : nodes (JObj [(lit "@id", JStr r)]) = [].
Proof. cbn [nodes flat_map snd app]. destruct (id_of _); reflexivity. Qed.
Lemma inner_perm k k' : Permutation k k' -> Permutation (inner k) (inner k').
Proof. intros P. unfold inner. induction P; cbn [flat_map]; [constructor|apply Permutation_app_head; assumption|rewrite !app_assoc; apply Permutation_app_tail, Permutation_app_comm|etransitivity; eassumption]. Qed.
Lemma nodes_expand n : forall o i, In o data -> id_of o = Some i -> Permutation (nodes (JObj (expand data n o))) (below n i).
Proof.
  induction n as [|n IH]; intros o i Io Ei.
  - destruct (fl_props _ F o Io) as [L N]. rewrite (nodes_item _ i); [|exact N|apply (expand_id 0), Ei|apply (id_nonempty _ _ Ei)|exact L]. cbn [expand below]. replace (inner o) with (@nil pystr); [reflexivity|]. symmetry.
    unfold inner. assert (G : forall kv, In kv o -> nodes (snd kv) = []).
    { intros [k v] Ik. destruct (value_cases o k v Io Ik) as [(_ & s & ->)|(_ & l & -> & Fl)]; [reflexivity|]. cbn [snd nodes]. rewrite Forall_forall in Fl.
      clear Ik. induction l as [|x l IHl]; [reflexivity|]. cbn [flat_map]. rewrite IHl; [|intros y Iy; apply Fl; right; exact Iy]. destruct (Fl x (or_introl eq_refl)) as [(r & _ & ->)|Lx]; [rewrite nodes_ref; reflexivity|rewrite nodes_lit; [reflexivity|exact Lx]]. }
    clear -G. induction o as [|kv o IHo]; [reflexivity|]. cbn [flat_map]. rewrite (G kv (or_introl eq_refl)), IHo; [reflexivity|]. intros kv' Ik. apply G. right. exact Ik.
  - destruct (fl_props _ F o Io) as [L N]. rewrite (nodes_item _ i); [|rewrite expand_keys; exact N|apply expand_id, Ei|apply (id_nonempty _ _ Ei)|].
    2: { rewrite <- (map_length fst), expand_keys, map_length. exact L. }
    rewrite below_S. constructor. unfold children, refs_at. rewrite (proj2 (item_iff i o) (conj Io Ei)). unfold inner, refs_of. rewrite expand_S.
    assert (V : forall x, is_ref x \/ is_literal x -> Permutation (nodes (exv n x)) (flat_map (below n) (filter (inlined data) (ref_of x)))).
    { intros x [(r & Nr & ->)|Lx].
      - cbn [ref_of]. rewrite (ref_id r Nr). cbn [filter]. destruct (inlined data r) eqn:Er.
        + pose proof (proj1 (inlined_single r) Er) as [_ (o' & Io' & Eo')]. destruct (exv_inlined n r o' Io' Eo' Er) as (a & b & E1 & E2). rewrite E2. cbn [flat_map]. rewrite app_nil_r.
          rewrite <- (IH o' r Io' Eo'). destruct (fl_props _ F o' Io') as [L' N']. rewrite <- (expand_keys n) in N'.
          assert (Pm : Permutation ((lit "@id", JStr r) :: a ++ b) (expand data n o')) by (rewrite E1; apply Permutation_middle).
          rewrite (nodes_item (expand data n o') r N' (expand_id n o' r Eo') Nr) by (rewrite <- (map_length fst), expand_keys, map_length; exact L').
          rewrite (nodes_item _ r).
          * constructor. apply inner_perm, Pm.
          * apply (Permutation_NoDup (Permutation_sym (Permutation_map fst Pm)) N').
          * left. reflexivity.
          * exact Nr.
          * rewrite (Permutation_length Pm), <- (map_length fst), expand_keys, map_length. exact L'.
        + rewrite (exv_kept n r Nr Er), nodes_ref. reflexivity.
      - rewrite (exv_lit n x Lx), (nodes_lit x Lx). destruct Lx as (kvs & -> & E & _). cbn [ref_of]. rewrite (lit_id _ E). reflexivity. }
    assert (G : forall kv, In kv o -> Permutation (nodes (match snd kv with JList l => JList (map (exv n) l) | v => exv n v end)) (flat_map (below n) (filter (inlined data) (flat_map ref_of (elements (snd kv)))))).
    { intros [k v] Ik. destruct (value_cases o k v Io Ik) as [(_ & s & ->)|(_ & l & -> & Fl)]; [reflexivity|]. cbn [snd nodes elements]. rewrite Forall_forall in Fl.
      clear Ik. induction l as [|x l IHl]; [constructor|]. cbn [map flat_map]. rewrite filter_app, flat_map_app. apply Permutation_app; [apply V, Fl; left; reflexivity|apply IHl; intros y Iy; apply Fl; right; exact Iy]. }
    clear -G. induction o as [|kv o IHo]; [constructor|]. cbn [map flat_map snd]. rewrite filter_app, flat_map_app. apply Permutation_app; [apply G; left; reflexivity|apply IHo; intros kv' Ik; apply G; right; exact Ik].
Qed.

(** *** nothing is left to expand *)
Lemma flat_len {A B} (f g : A -> list B) l : (forall a, In a l -> (length (f a) <= length (g a))%nat) -> (length (flat_map f l) <= length (flat_map g l))%nat /\
  (length (flat_map f l) = length (flat_map g l) -> forall a, In a l -> length (f a) = length (g a)).
Proof.
  induction l as [|a l IH]; intros H; [split; [cbn; lia|intros _ a []]|]. destruct IH as [I1 I2]; [intros x Ix; apply H; right; exact Ix|].
  pose proof (H a (or_introl eq_refl)) as Ha. cbn [flat_map]. rewrite !app_length. split; [lia|]. intros E x [<-|Ix]; [lia|]. apply I2; [lia|exact Ix].
Qed.
Lemma below_mono n : forall i, (length (below n i) <= length (below (S n) i))%nat.
Proof.
  induction n as [|n IH]; intros i; [cbn [below length]; lia|]. rewrite (below_S n), (below_S (S n)). cbn [length]. apply le_n_S. apply flat_len. intros a _. apply IH.
Qed.
Definition done n i := length (below n i) = length (below (S n) i).
Lemma expand_framed n : forall o i, In o data -> id_of o = Some i -> done n i -> framed data o (expand data n o).
Proof.
  induction n as [|n IH]; intros o i Io Ei D.
  - assert (Cn : children i = []).
    { unfold done in D. rewrite below_S in D. cbn [below length] in D. injection D as D. destruct (children i) as [|c l]; [reflexivity|]. discriminate D. }
    unfold children, refs_at in Cn. rewrite (proj2 (item_iff i o) (conj Io Ei)) in Cn. cbn [expand]. constructor.
    assert (G : forall kv, In kv o -> fst kv = fst kv /\ (fst kv = lit "@id" /\ snd kv = snd kv \/ exists l l', snd kv = JList l /\ snd kv = JList l' /\ Forall2 (framed_value data) l l')).
    { intros [k v] Ik. split; [reflexivity|]. cbn [fst snd]. destruct (value_cases o k v Io Ik) as [(Ek & _)|(_ & l & -> & Fl)]; [left; auto|right]. exists l, l. split; [reflexivity|]. split; [reflexivity|].
      assert (S : forall x r, In x l -> x = JObj [(lit "@id", JStr r)] -> r <> [] -> ~ single data r).
      { intros x r Ix -> Nr Sr. apply inlined_single in Sr. assert (X : In r (filter (inlined data) (refs_of o))); [|rewrite Cn in X; destruct X]. apply filter_In. split; [|exact Sr].
        apply in_flat_map. exists (k, JList l). split; [exact Ik|]. cbn [snd elements]. apply in_flat_map. exists (JObj [(lit "@id", JStr r)]). split; [exact Ix|]. cbn [ref_of]. rewrite (ref_id r Nr). left. reflexivity. }
      rewrite Forall_forall in Fl. clear Ik Cn. induction l as [|x l IHl]; [constructor|]. constructor; [|apply IHl; [intros y Iy; apply Fl; right; exact Iy|intros y r Iy; apply S; right; exact Iy]].
      destruct (Fl x (or_introl eq_refl)) as [(r & Nr & ->)|Lx]; [apply framed_ref; apply (S _ r (or_introl eq_refl) eq_refl Nr)|apply framed_literal, Lx]. }
    clear -G. induction o as [|kv o IHo]; [constructor|]. constructor; [apply G; left; reflexivity|apply IHo; intros kv' Ik; apply G; right; exact Ik].
  - assert (Cn : forall c, In c (children i) -> done n c).
    { unfold done in D. rewrite (below_S n), (below_S (S n)) in D. cbn [length] in D. injection D as D. apply (flat_len (below n) (below (S n)) (children i)); [intros a _; apply below_mono|exact D]. }
    rewrite expand_S. constructor.
    assert (G : forall kv, In kv o -> let v' := match snd kv with JList l => JList (map (exv n) l) | v => exv n v end in
      fst kv = fst kv /\ (fst kv = lit "@id" /\ v' = snd kv \/ exists l l', snd kv = JList l /\ v' = JList l' /\ Forall2 (framed_value data) l l')).
    { intros [k v] Ik. cbn zeta. split; [reflexivity|]. cbn [fst snd]. destruct (value_cases o k v Io Ik) as [(Ek & s & ->)|(_ & l & -> & Fl)]; [left; auto|right]. exists l, (map (exv n) l). split; [reflexivity|]. split; [reflexivity|].
      rewrite Forall_forall in Fl. assert (S : forall x r, In x l -> x = JObj [(lit "@id", JStr r)] -> r <> [] -> inlined data r = true -> done n r).
      { intros x r Ix -> Nr Sr. apply Cn. unfold children, refs_at. rewrite (proj2 (item_iff i o) (conj Io Ei)). apply filter_In. split; [|exact Sr].
        apply in_flat_map. exists (k, JList l). split; [exact Ik|]. cbn [snd elements]. apply in_flat_map. exists (JObj [(lit "@id", JStr r)]). split; [exact Ix|]. cbn [ref_of]. rewrite (ref_id r Nr). left. reflexivity. }
      clear Ik. induction l as [|x l IHl]; [constructor|]. constructor; [|apply IHl; [intros y Iy; apply Fl; right; exact Iy|intros y r Iy; apply S; right; exact Iy]].
      destruct (Fl x (or_introl eq_refl)) as [(r & Nr & ->)|Lx]; [|rewrite (exv_lit n x Lx); apply framed_literal, Lx]. destruct (inlined data r) eqn:Er.
      - pose proof (proj1 (inlined_single r) Er) as Sr. destruct Sr as [Sr1 (o' & Io' & Eo')]. destruct (exv_inlined n r o' Io' Eo' Er) as (a & b & E1 & E2). rewrite E2.
        apply (framed_inlined data r o' (expand data n o')); [apply inlined_single, Er|exact Io'|exact Eo'| |rewrite E1; apply Permutation_middle].
        apply (IH o' r Io' Eo'). apply (S _ r (or_introl eq_refl) eq_refl Nr Er).
      - rewrite (exv_kept n r Nr Er). apply framed_ref. intros Sr. apply inlined_single in Sr. rewrite Sr in Er. discriminate Er. }
    clear -G. induction o as [|kv o IHo]; [constructor|]. constructor; [apply (G kv); left; reflexivity|apply IHo; intros kv' Ik; apply G; right; exact Ik].
Qed.
Lemma roots_done i : In i roots -> done (length data) i.
Proof.
  revert i. apply (flat_len (below (length data)) (below (S (length data))) roots); [intros a _; apply below_mono|].
  destruct (all_ids (length data)) as [N1 _], (all_ids (S (length data))) as [N2 _].
  pose proof (NoDup_incl_length N1 (all_mono (length data))) as L1. pose proof (NoDup_incl_length N2 closed_all) as L2. unfold all in L1, L2. lia.
Qed.

(** *** the result *)
Definition tops : list jobj := map snd (filter (fun io => negb (inlined data (fst io))) (items_of data)).
Lemma frame_tops : frame data = map (expand data (length data)) tops.
Proof. unfold frame, tops. rewrite map_map. reflexivity. Qed.
Lemma tops_spec : tops = filter (fun o => match id_of o with Some i => negb (inlined data i) | None => true end) data.
Proof.
  unfold tops. rewrite items_combine. revert Eids. generalize ids. clear. generalize (inlined data) as f. intros f. induction data as [|o d IH]; intros l E; destruct l as [|i l]; try discriminate E; [reflexivity|].
  cbn [map] in E. injection E as E1 E2. cbn [combine filter fst]. rewrite E1. destruct (negb (f i)); cbn [map snd]; rewrite (IH l E2); reflexivity.
Qed.
Lemma frame_nodes : Permutation (flat_map (fun o => nodes (JObj o)) (frame data)) (all (length data)).
Proof.
  rewrite frame_tops, tops_spec. unfold all, roots. set (n := length data).
  assert (G : forall d l, map id_of d = map Some l -> (forall o, In o d -> In o data) ->
    Permutation (flat_map (fun o => nodes (JObj o)) (map (expand data n) (filter (fun o => match id_of o with Some i => negb (inlined data i) | None => true end) d))) (flat_map (below n) (filter (fun i => negb (inlined data i)) l))).
  { induction d as [|o d IH]; intros l E S; destruct l as [|i l]; try discriminate E; [constructor|]. cbn [map] in E. injection E as E1 E2. cbn [filter]. rewrite E1. specialize (IH l E2 (fun o' Io' => S o' (or_intror Io'))).
    destruct (negb (inlined data i)); [|exact IH]. cbn [map flat_map]. apply Permutation_app; [|exact IH]. apply nodes_expand; [apply S; left; reflexivity|exact E1]. }
  apply G; [exact Eids|auto].
Qed.
End Frame.
