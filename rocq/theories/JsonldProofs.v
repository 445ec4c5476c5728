(** Simplification of JSON-LD (C44). *)
From Verif Require Import PyStr Dsv DsvProofs4 Json Jsonld JsonldSpec.

Lemma dget_map_snd {A B} (f : A -> B) (l : list (pystr * A)) k : dget str_eqb (map (fun kv => (fst kv, f (snd kv))) l) k = option_map f (dget str_eqb l k).
Proof. induction l as [|[k' v] l IH]; [reflexivity|]. cbn [map dget fst snd]. destruct (str_eqb k k'); [reflexivity|exact IH]. Qed.
Lemma mapM_map {A B C} (f : B -> res C) (g : A -> B) l : mapM f (map g l) = mapM (fun a => f (g a)) l.
Proof. induction l as [|a l IH]; [reflexivity|]. cbn [map mapM]. rewrite IH. reflexivity. Qed.
Lemma mapM_ok_all {A B} (f : A -> res B) l : (forall a, In a l -> exists b, f a = Ok b) -> exists m, mapM f l = Ok m.
Proof.
  induction l as [|a l IH]; intros H; [exists []; reflexivity|]. destruct (H a (or_introl eq_refl)) as [b Hb]. destruct IH as [m Hm]; [intros x Hx; apply H; right; exact Hx|].
  exists (b :: m). cbn [mapM]. rewrite Hb, Hm. reflexivity.
Qed.
Lemma dget_In_pair {A} (l : list (pystr * A)) k v : dget str_eqb l k = Some v -> In (k, v) l.
Proof.
  induction l as [|[k' v'] l IH]; [discriminate|]. cbn [dget]. destruct (str_eqb k k') eqn:E; [|intros H; right; auto]. apply str_eqb_eq in E. subst. intros H. injection H as ->. left. reflexivity.
Qed.
Lemma dget_None_keys {A} (l : list (pystr * A)) k : dget str_eqb l k = None <-> ~ In k (map fst l).
Proof.
  induction l as [|[k' v'] l IH]; [split; [intros _ []|reflexivity]|]. cbn [dget map fst In]. destruct (str_eqb k k') eqn:E.
  - apply str_eqb_eq in E. subst. split; [discriminate|]. intros H. contradiction H. left. reflexivity.
  - rewrite IH. apply str_eqb_neq in E. split; [intros H [X|X]; [congruence|contradiction]|tauto].
Qed.

Section ToJson.
Variable fl : bool.
Definition full j := t_full (conv fl j).
Definition rest j := t_rest (conv fl j).
Definition body j := t_body (conv fl j).
Lemma rest_obj kvs : rest (JObj kvs) = (items <- mapM (fun kv => v <- full (snd kv) ;; Ok (rename (fst kv), v)) kvs ;; Ok (JObj (dset_all str_eqb [] items))).
Proof. unfold rest, full. cbn [conv t_rest]. rewrite mapM_map. reflexivity. Qed.
Lemma body_obj kvs : body (JObj kvs) = match kvs with [(k, x)] => if str_eqb k (lit "@id") then rest x else rest (JObj kvs) | _ => rest (JObj kvs) end.
Proof. unfold body, rest. cbn [conv t_body]. destruct kvs as [|[k x] [|kv kvs]]; reflexivity. Qed.
Lemma full_obj kvs : full (JObj kvs) = match dget str_eqb kvs (lit "@value") with Some v => body v | None => body (JObj kvs) end.
Proof. unfold full at 1, body. cbn [conv t_full]. rewrite (dget_map_snd (conv fl)). destruct (dget str_eqb kvs (lit "@value")); reflexivity. Qed.
Lemma rest_list l : rest (JList l) = match l with [x] => if fl then full x else (v <- full x ;; Ok (JList [v])) | _ => items <- mapM full l ;; Ok (JList items) end.
Proof. unfold rest, full. cbn [conv t_rest]. destruct l as [|x [|y l]]; try reflexivity. cbn [map]. rewrite <- (mapM_map t_full (conv fl)). reflexivity. Qed.
Lemma full_list l : full (JList l) = rest (JList l).
Proof. reflexivity. Qed.
Lemma body_list l : body (JList l) = match l with [x] => if is_id x then Err TypeError else rest (JList l) | _ => rest (JList l) end.
Proof. reflexivity. Qed.

(** *** success *)
Lemma usable_sub j j' : usable j -> within j' j -> usable j'.
Proof.
  intros H W kvs v W1. apply H. clear H v. revert W1. induction W; intros W1; [exact W1|eapply within_list; eauto|eapply within_obj; eauto].
Qed.
Lemma total_all j : usable j -> (exists r, rest j = Ok r) /\ (exists r, full j = Ok r) /\ (value_usable j -> exists r, body j = Ok r).
Proof.
  induction j as [|b|z|f|s|l IH|kvs IH] using json_ind'; intros U; try (solve [split; [eexists; reflexivity|split; [eexists; reflexivity|intros []]]]).
  - split; [eexists; reflexivity|split; [eexists; reflexivity|eexists; reflexivity]].
  - rewrite Forall_forall in IH.
    assert (R : exists r, rest (JList l) = Ok r).
    { rewrite rest_list. assert (S : forall x, In x l -> exists r, full x = Ok r).
      { intros x Ix. apply (IH x Ix). apply (usable_sub _ _ U). eapply within_list; [exact Ix|constructor]. }
      destruct l as [|x [|y l]].
      - eexists; reflexivity.
      - destruct (S x (or_introl eq_refl)) as [r Hr]. rewrite Hr. destruct fl; eexists; reflexivity.
      - destruct (mapM_ok_all full _ S) as [m Hm]. rewrite Hm. eexists; reflexivity. }
    split; [exact R|]. split; [exact R|]. intros Hv. rewrite body_list. destruct l as [|x [|y l]]; try exact R. destruct (is_id x) eqn:E; [|exact R].
    exfalso. apply Hv. destruct x; try discriminate E. cbn in E. apply str_eqb_eq in E. rewrite E. reflexivity.
  - rewrite Forall_forall in IH.
    assert (S : forall kv, In kv kvs -> usable (snd kv)).
    { intros [k x] Ix. apply (usable_sub _ _ U). eapply within_obj; [exact Ix|constructor]. }
    assert (R : exists r, rest (JObj kvs) = Ok r).
    { rewrite rest_obj. destruct (mapM_ok_all (fun kv => v <- full (snd kv) ;; Ok (rename (fst kv), v)) kvs) as [m Hm].
      - intros kv Ikv. destruct (IH kv Ikv (S kv Ikv)) as (_ & [r Hr] & _). exists (rename (fst kv), r). rewrite Hr. reflexivity.
      - rewrite Hm. eexists; reflexivity. }
    assert (B : exists r, body (JObj kvs) = Ok r).
    { rewrite body_obj. destruct kvs as [|[k x] [|kv kvs]]; try exact R. destruct (str_eqb k (lit "@id")); [|exact R]. apply (IH (k, x) (or_introl eq_refl)). apply (S (k, x)). left. reflexivity. }
    split; [exact R|]. split; [|intros _; exact B]. rewrite full_obj. destruct (dget str_eqb kvs (lit "@value")) as [v|] eqn:E; [|exact B].
    pose proof (dget_In_pair _ _ _ E) as I. apply (IH _ I (S _ I)). apply (U kvs v); [constructor|exact E].
Qed.
Lemma unusable_fails kvs v : dget str_eqb kvs (lit "@value") = Some v -> ~ value_usable v -> full (JObj kvs) = Err TypeError.
Proof.
  intros E N. rewrite full_obj, E. destruct v; try (contradiction N; exact I); try reflexivity.
  rewrite body_list. destruct l as [|x [|y l]]; try (contradiction N; discriminate). destruct (is_id x) eqn:Ex; [reflexivity|]. contradiction N. intros X. injection X as ->.
  cbn in Ex. discriminate Ex.
Qed.

(** *** what comes out *)
Lemma plain_sub j j' : plain_ld j -> within j' j -> plain_ld j'.
Proof.
  intros H W kvs k v W1. apply H. clear H v. revert W1. induction W; intros W1; [exact W1|eapply within_list; eauto|eapply within_obj; eauto].
Qed.
Lemma keys_sub j j' : keys_ok j -> within j' j -> keys_ok j'.
Proof.
  intros H W kvs W1. apply H. clear H. revert W1. induction W; intros W1; [exact W1|eapply within_list; eauto|eapply within_obj; eauto].
Qed.
Lemma rename_nodup l : NoDup l -> ~ (In (lit "rdf:type") l /\ In (lit "@type") l) -> NoDup (map rename l).
Proof.
  induction l as [|a l IH]; intros N H; [constructor|]. inversion N as [|? ? N1 N2]; subst. cbn [map]. constructor.
  - intros I. apply in_map_iff in I. destruct I as (b & Eb & Ib). unfold rename in Eb. destruct (str_eqb b (lit "rdf:type")) eqn:E1, (str_eqb a (lit "rdf:type")) eqn:E2.
    + apply str_eqb_eq in E1, E2. subst. contradiction.
    + apply str_eqb_eq in E1. subst. apply H. split; [right; exact Ib|left; reflexivity].
    + apply str_eqb_eq in E2. subst. apply H. split; [left; reflexivity|right; exact Ib].
    + subst. contradiction.
  - apply IH; [exact N2|]. intros [X Y]. apply H. split; right; assumption.
Qed.
Lemma mapM_Forall2 {A B} (f : A -> res B) l m : mapM f l = Ok m -> Forall2 (fun a b => f a = Ok b) l m.
Proof.
  revert m. induction l as [|a l IH]; intros m H; cbn [mapM] in H; [apply Ok_inj in H; subst; constructor|].
  destruct (f a) as [b|] eqn:E; [|discriminate H]. cbn [bind] in H. destruct (mapM f l) as [m'|]; [|discriminate H]. apply Ok_inj in H. subst. constructor; [exact E|apply IH; reflexivity].
Qed.
Lemma Forall2_weaken {A B} (P Q : A -> B -> Prop) l m : (forall a b, In a l -> P a b -> Q a b) -> Forall2 P l m -> Forall2 Q l m.
Proof. intros H F. induction F as [|a b l m Hab F IH]; constructor; [apply H; [left; reflexivity|exact Hab]|apply IH; intros x y Ix; apply H; right; exact Ix]. Qed.
Lemma dset_all_nodup {A} (items : list (pystr * A)) : NoDup (map fst items) -> dset_all str_eqb [] items = items.
Proof. intros N. rewrite (dset_all_new str_eqb str_eqb_eq items []); [reflexivity|exact N]. Qed.
Lemma full_simplifies j r : plain_ld j -> keys_ok j -> full j = Ok r -> simplifies fl j r.
Proof.
  revert r. induction j as [|b|z|f|s|l IH|kvs IH] using json_ind'; intros r Pl K H; try (apply Ok_inj in H; subst; apply simp_atom; exact I).
  - rewrite Forall_forall in IH. assert (S : forall x r, In x l -> full x = Ok r -> simplifies fl x r).
    { intros x r' Ix Hx. apply (IH x Ix); [apply (plain_sub _ _ Pl)|apply (keys_sub _ _ K)|exact Hx]; eapply within_list; [exact Ix|constructor|exact Ix|constructor]. }
    rewrite full_list, rest_list in H.
    assert (G : fl = false \/ length l <> 1%nat -> (items <- mapM full l ;; Ok (JList items)) = Ok r -> simplifies fl (JList l) r).
    { intros Hl Hm. destruct (mapM full l) as [m|] eqn:E; [|discriminate Hm]. apply Ok_inj in Hm. subst r. apply mapM_Forall2 in E. apply simp_list.
      - intros F. destruct Hl as [Hl|Hl]; [congruence|exact Hl].
      - eapply Forall2_weaken; [|exact E]. intros a b Ia. apply S, Ia. }
    destruct l as [|x [|y l]].
    + apply G; [right; discriminate|exact H].
    + destruct fl eqn:Ef.
      * apply simp_single; [reflexivity|]. apply S; [left; reflexivity|exact H].
      * apply G; [left; reflexivity|]. cbn [mapM]. destruct (full x); [exact H|discriminate H].
    + apply G; [right; discriminate|exact H].
  - rewrite full_obj in H. destruct (dget str_eqb kvs (lit "@value")) as [v|] eqn:Ev.
    + destruct (Pl kvs (lit "@value") v (within_refl _) (or_introl eq_refl) Ev) as [s ->]. apply Ok_inj in H. subst r. apply simp_value, Ev.
    + rewrite body_obj in H.
      assert (G : (forall x, kvs <> [(lit "@id", x)]) -> rest (JObj kvs) = Ok r -> simplifies fl (JObj kvs) r).
      { intros Nk Hr. rewrite rest_obj in Hr. match type of Hr with bind ?e _ = _ => destruct e as [items|] eqn:E end; [|discriminate Hr]. apply Ok_inj in Hr. subst r.
        apply mapM_Forall2 in E. rewrite Forall_forall in IH.
        assert (F : Forall2 (fun kv kv' => fst kv' = rename (fst kv) /\ simplifies fl (snd kv) (snd kv')) kvs items).
        { eapply Forall2_weaken; [|exact E]. intros [k x] [k' x'] Ia Hx. cbn [fst snd] in *. destruct (full x) as [y|] eqn:Ey; [|discriminate Hx]. apply Ok_inj in Hx. injection Hx as <- <-.
          split; [reflexivity|]. apply (IH (k, x) Ia); [apply (plain_sub _ _ Pl)|apply (keys_sub _ _ K)|exact Ey]; eapply within_obj; [exact Ia|constructor|exact Ia|constructor]. }
        rewrite dset_all_nodup; [apply simp_obj; assumption|].
        assert (Em : map fst items = map rename (map fst kvs)).
        { clear -F. induction F as [|a b l m [Hab _] F IH]; [reflexivity|]. cbn [map]. rewrite Hab, IH. reflexivity. }
        rewrite Em. destruct (K kvs (within_refl _)) as [K1 K2]. apply rename_nodup; assumption. }
      destruct kvs as [|[k x] [|kv kvs]]; try (apply G; [discriminate|exact H]). destruct (str_eqb k (lit "@id")) eqn:Ek.
      * apply str_eqb_eq in Ek. subst k. destruct (Pl _ (lit "@id") x (within_refl _) (or_intror eq_refl)) as [s ->]; [cbn; reflexivity|]. apply Ok_inj in H. subst r. apply simp_id.
      * apply G; [|exact H]. intros y X. injection X as -> _. rewrite str_eqb_refl in Ek. discriminate Ek.
Qed.

(** *** nothing is left to simplify *)
Lemma plain_usable j : plain_ld j -> usable j.
Proof. intros H kvs v W E. destruct (H kvs (lit "@value") v W (or_introl eq_refl) E) as [s ->]. exact I. Qed.
Lemma rename_value k : rename k = lit "@value" -> k = lit "@value".
Proof. unfold rename. destruct (str_eqb k (lit "rdf:type")); [discriminate|auto]. Qed.
Lemma rename_id k : rename k = lit "@id" -> k = lit "@id".
Proof. unfold rename. destruct (str_eqb k (lit "rdf:type")); [discriminate|auto]. Qed.
Lemma rename_type k : rename k <> lit "rdf:type".
Proof. unfold rename. destruct (str_eqb k (lit "rdf:type")) eqn:E; [discriminate|]. apply str_eqb_neq in E. exact E. Qed.
Definition fine (r : json) : Prop := simple fl r /\ forall kvs, within (JObj kvs) r -> NoDup (map fst kvs).
Lemma within_atom j a : within j a -> match a with JList _ | JObj _ => False | _ => True end -> j = a.
Proof. intros W. inversion W; subst; auto; intros []. Qed.
Lemma fine_atom a : match a with JList _ | JObj _ => False | _ => True end -> fine a.
Proof.
  intros H. split; [split|].
  - intros kvs W. apply within_atom in W; [|exact H]. subst a. destruct H.
  - intros _ x W. apply within_atom in W; [|exact H]. subst a. destruct H.
  - intros kvs W. apply within_atom in W; [|exact H]. subst a. destruct H.
Qed.
Lemma within_list_inv j l : within j (JList l) -> j = JList l \/ exists x, In x l /\ within j x.
Proof. intros W. inversion W; subst; [left; reflexivity|right; eexists; split; eassumption]. Qed.
Lemma within_obj_inv j kvs : within j (JObj kvs) -> j = JObj kvs \/ exists kv, In kv kvs /\ within j (snd kv).
Proof. intros W. inversion W as [|x1 l1 j1 I1 W1|k1 x1 kvs1 j1 I1 W1]; subst; [left; reflexivity|right; exists (k1, x1); split; assumption]. Qed.
Lemma fine_list l : (fl = true -> length l <> 1%nat) -> Forall fine l -> fine (JList l).
Proof.
  intros Hl F. rewrite Forall_forall in F. split; [split|].
  - intros kvs W. apply within_list_inv in W. destruct W as [W|(x & Ix & W)]; [discriminate W|]. destruct (F _ Ix) as [[F1 _] _]. apply F1. exact W.
  - intros E x W. apply within_list_inv in W. destruct W as [W|(y & Iy & W)]; [injection W as <-; apply (Hl E); reflexivity|]. destruct (F _ Iy) as [[_ F1] _]. apply (F1 E x). exact W.
  - intros kvs W. apply within_list_inv in W. destruct W as [W|(x & Ix & W)]; [discriminate W|]. destruct (F _ Ix) as [_ F1]. apply F1. exact W.
Qed.
Lemma fine_obj kvs : dget str_eqb kvs (lit "@value") = None -> dget str_eqb kvs (lit "rdf:type") = None -> (forall x, kvs <> [(lit "@id", x)]) -> NoDup (map fst kvs) ->
  Forall (fun kv => fine (snd kv)) kvs -> fine (JObj kvs).
Proof.
  intros H1 H2 H3 H4 F. rewrite Forall_forall in F. split; [split|].
  - intros kvs' W. apply within_obj_inv in W. destruct W as [W|(x & Ix & W)]; [injection W as ->; auto|]. destruct (F _ Ix) as [[F1 _] _]. apply F1. exact W.
  - intros E x W. apply within_obj_inv in W. destruct W as [W|(y & Iy & W)]; [discriminate W|]. destruct (F _ Iy) as [[_ F1] _]. apply (F1 E x). exact W.
  - intros kvs' W. apply within_obj_inv in W. destruct W as [W|(x & Ix & W)]; [injection W as ->; auto|]. destruct (F _ Ix) as [_ F1]. apply F1. exact W.
Qed.
Lemma simplifies_list_inv l r : simplifies fl (JList l) r ->
  (exists x, l = [x] /\ simplifies fl x r) \/ (exists l', r = JList l' /\ (fl = true -> length l <> 1%nat) /\ Forall2 (simplifies fl) l l').
Proof. intros H. inversion H; subst; [contradiction|left; eexists; split; [reflexivity|assumption]|right; eexists; split; [reflexivity|split; assumption]]. Qed.
Lemma simplifies_obj_inv kvs r : simplifies fl (JObj kvs) r -> (exists s, r = JStr s) \/
  (exists kvs', r = JObj kvs' /\ dget str_eqb kvs (lit "@value") = None /\ (forall x, kvs <> [(lit "@id", x)]) /\
     Forall2 (fun kv kv' => fst kv' = rename (fst kv) /\ simplifies fl (snd kv) (snd kv')) kvs kvs').
Proof. intros H. inversion H; subst; [contradiction|left; eexists; reflexivity|left; eexists; reflexivity|right; eexists; split; [reflexivity|split; [assumption|split; assumption]]]. Qed.
Lemma Forall2_right {A B} (P : A -> B -> Prop) l m y : Forall2 P l m -> In y m -> exists x, In x l /\ P x y.
Proof.
  intros F Iy. induction F as [|a b l m Hab F IHF]; [destruct Iy|]. destruct Iy as [<-|Iy]; [exists a; split; [left; reflexivity|exact Hab]|]. destruct (IHF Iy) as (x & Ix & Hx). exists x. split; [right|]; assumption.
Qed.
Lemma simplifies_fine j r : keys_ok j -> simplifies fl j r -> fine r.
Proof.
  revert r. induction j as [|b|z|f|s|l IH|kvs IH] using json_ind'; intros r K H; try (inversion H; subst; apply fine_atom; exact I).
  - rewrite Forall_forall in IH. apply simplifies_list_inv in H. destruct H as [(x & -> & H)|(l' & -> & Hl & F)].
    + apply (IH x (or_introl eq_refl)); [apply (keys_sub _ _ K); eapply within_list; [left; reflexivity|constructor]|assumption].
    + apply fine_list; [intros E; rewrite <- (Forall2_length _ _ _ F); auto|]. apply Forall_forall. intros y Iy. destruct (Forall2_right _ _ _ _ F Iy) as (x & Ix & Hx). 
      apply (IH x Ix); [|exact Hx]. apply (keys_sub _ _ K). eapply within_list; [exact Ix|constructor].
  - rewrite Forall_forall in IH. destruct (K kvs (within_refl _)) as [K1 K2]. apply simplifies_obj_inv in H. destruct H as [[s ->]|(kvs' & -> & Hv & Hi & F)]; [apply fine_atom; exact I|].
    assert (Em : map fst kvs' = map rename (map fst kvs)).
    { clear -F. induction F as [|a b l m [Hab _] F IHF]; [reflexivity|]. cbn [map]. rewrite IHF. f_equal. exact Hab. }
    apply fine_obj.
    + apply dget_None_keys. rewrite Em. intros X. apply in_map_iff in X. destruct X as (k & Ek & Ik). apply rename_value in Ek. subst k. revert Ik. apply dget_None_keys. assumption.
    + apply dget_None_keys. rewrite Em. intros X. apply in_map_iff in X. destruct X as (k & Ek & Ik). apply (rename_type k Ek).
    + intros x E. subst kvs'. destruct kvs as [|[k y] [|kv kvs]]; [inversion F| |inversion F as [|a b l m _ F1]; inversion F1]. cbn in Em. injection Em as Ek. symmetry in Ek. apply rename_id in Ek. subst k. apply (Hi y). reflexivity.
    + rewrite Em. apply rename_nodup; assumption.
    + apply Forall_forall. intros kv' Ikv. destruct (Forall2_right _ _ _ _ F Ikv) as ([k x] & Ix & [_ Hx]).
      apply (IH _ Ix); [|exact Hx]. apply (keys_sub _ _ K). eapply within_obj; [exact Ix|constructor].
Qed.
(** *** simple values stay as they are *)
Lemma fine_sub j j' : fine j -> within j' j -> fine j'.
Proof.
  intros [[F1 F2] F3] W. assert (T : forall x, within x j' -> within x j).
  { intros x Wx. clear F1 F2 F3. revert Wx. induction W; intros Wx; [exact Wx|eapply within_list; eauto|eapply within_obj; eauto]. }
  split; [split|]; [intros kvs Wk; apply F1; auto|intros E x Wx; apply (F2 E x); auto|intros kvs Wk; apply F3; auto].
Qed.
Lemma mapM_same {A} (f : A -> res A) l : (forall a, In a l -> f a = Ok a) -> mapM f l = Ok l.
Proof.
  induction l as [|a l IH]; intros H; [reflexivity|]. cbn [mapM]. rewrite (H a (or_introl eq_refl)). cbn [bind]. rewrite IH; [reflexivity|]. intros x Ix. apply H. right. exact Ix.
Qed.
Lemma fine_fixed j : fine j -> full j = Ok j.
Proof.
  induction j as [|b|z|f|s|l IH|kvs IH] using json_ind'; intros F; try reflexivity.
  - rewrite Forall_forall in IH. rewrite full_list, rest_list.
    assert (M : mapM full l = Ok l) by (apply mapM_same; intros x Ix; apply (IH x Ix); apply (fine_sub _ _ F); eapply within_list; [exact Ix|constructor]).
    destruct l as [|x [|y l]]; [reflexivity| |rewrite M; reflexivity]. destruct F as [[_ F2] _]. destruct fl eqn:Ef; [exfalso; apply (F2 eq_refl x); constructor|].
    cbn [mapM] in M. destruct (full x) as [v|]; [|discriminate M]. cbn [bind] in M. apply Ok_inj in M. cbn [bind]. rewrite M. reflexivity.
  - rewrite Forall_forall in IH. destruct (proj1 (proj1 F) kvs (within_refl _)) as (F1 & F2 & F3). rewrite full_obj, F1, body_obj.
    assert (M : mapM (fun kv => v <- full (snd kv) ;; Ok (rename (fst kv), v)) kvs = Ok kvs).
    { apply mapM_same. intros [k x] Ix. cbn [fst snd]. pose proof (IH (k, x) Ix) as E. cbn [snd] in E. rewrite E; [|apply (fine_sub _ _ F); eapply within_obj; [exact Ix|constructor]]. cbn [bind].
      unfold rename. destruct (str_eqb k (lit "rdf:type")) eqn:Ek; [|reflexivity]. apply str_eqb_eq in Ek. subst k. apply dget_None_keys in F2. contradiction F2. apply (in_map fst _ _ Ix). }
    assert (R : rest (JObj kvs) = Ok (JObj kvs)).
    { rewrite rest_obj, M. cbn [bind]. rewrite dset_all_nodup; [reflexivity|]. apply (proj2 F). constructor. }
    destruct kvs as [|[k x] [|kv kvs]]; try exact R. destruct (str_eqb k (lit "@id")) eqn:Ek; [|exact R]. apply str_eqb_eq in Ek. subst k. exfalso. apply (F3 x). reflexivity.
Qed.
End ToJson.
