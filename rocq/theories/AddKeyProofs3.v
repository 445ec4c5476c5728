(** One more foreign key is one more check of references (C68). *)
From Coq Require Import Lia.
From Verif Require Import PyStr Dsv DsvSpec Column Schema Table TableSpec Group GroupSpec AddKeySpec.

Section Check.
Context {V : Type} (veq : V -> V -> bool).
Notation gtable := (@gtable V).
Record alike (t t' : gtable) : Prop := { ak_name : g_name t' = g_name t; ak_cols : g_cols t' = g_cols t; ak_iter : g_iter t' = g_iter t }.
Lemma alike_refl t : alike t t. Proof. split; reflexivity. Qed.
Lemma alike_sym t t' : alike t t' -> alike t' t. Proof. intros [A B C]. split; auto. Qed.
Lemma alike_list_sym ts ts' : Forall2 alike ts ts' -> Forall2 alike ts' ts.
Proof. induction 1; constructor; auto using alike_sym. Qed.
Lemma last_alike ts ts' r x : Forall2 alike ts ts' -> last_named ts r x -> exists x', last_named ts' r x' /\ alike x x'.
Proof.
  intros F (pre & post & -> & E & Nt). apply Forall2_app_inv_l in F. destruct F as (pre' & l & F1 & F2 & ->). inversion F2 as [|? x' ? post' A F3]; subst.
  exists x'. split; [|exact A]. exists pre', post'. split; [reflexivity|]. split; [destruct A; congruence|].
  intros y Hy. clear -F3 Nt Hy. induction F3 as [|a b l m Ab F IH]; [destruct Hy|]. destruct Hy as [<-|Hy]; [destruct Ab as [Ab _ _]; rewrite Ab; apply Nt; left; reflexivity|].
  apply IH; [|exact Hy]. intros z Hz. apply Nt. right. exact Hz.
Qed.
Lemma key_alike strict log a a' k b b' : alike a a' -> alike b b' -> key_holds veq strict log a k b -> key_holds veq strict log a' k b'.
Proof.
  intros [A1 A2 A3] [B1 B2 B3] [K1 K2 K3 K4 K5 K6 K7 K8]. unfold column_pair, satisfied, found, rows_of in *.
  constructor; unfold column_pair, satisfied, found, rows_of; rewrite ?A2, ?A3, ?B2, ?B3; assumption.
Qed.
(** the check of references, key by key *)
Lemma by_key strict log ts : integrity_holds veq strict log ts <->
  all_resolved ts /\ (forall child fk target, refers_to ts child fk target -> key_holds veq strict log child fk target) /\
  (strict = true -> readable_children ts /\ no_nulls ts).
Proof.
  unfold integrity_holds, keys_match, readable, keys_usable, all_satisfied, all_unique. split.
  - intros ((R & M) & Rd & U & S & St). split; [exact R|]. split; [|intros E; destruct (St E) as (X & Y & _); auto].
    intros child fk target H. destruct (U _ _ _ H) as (U1 & U2 & U3). constructor; eauto.
    + intros E. destruct (St E) as (_ & _ & X). eapply X, H.
    + intros E. destruct (St E) as (X & Y & _). destruct H as (H1 & H2 & _). split; [apply X; [exact H1|intros D; rewrite D in H2; destruct H2]|]. intros line d Hd. eapply Y; eauto.
  - intros (R & K & St). split; [split; [exact R|]|]. { intros child fk target H. apply (kh_match _ _ _ _ _ _ (K _ _ _ H)). }
    split. { intros child fk target H. apply (kh_read _ _ _ _ _ _ (K _ _ _ H)). }
    split. { intros child fk target H. destruct (K _ _ _ H). auto. }
    split. { intros child fk target H. apply (kh_found _ _ _ _ _ _ (K _ _ _ H)). }
    intros E. destruct (St E) as (X & Y). split; [exact X|]. split; [exact Y|]. intros child fk target H. apply (kh_unique _ _ _ _ _ _ (K _ _ _ H) E).
Qed.

Theorem one_key_more strict log pre t k post : fk_schemaReference k = None ->
  (integrity_holds veq strict log (pre ++ add_key k t :: post) <->
   integrity_holds veq strict log (pre ++ t :: post) /\
   exists r target, fk_resource k = Some r /\ last_named (pre ++ t :: post) r target /\ key_holds veq strict log t k target).
Proof.
  intros Sk. set (ts := pre ++ t :: post). set (ts' := pre ++ add_key k t :: post).
  assert (Al : Forall2 alike ts ts').
  { apply Forall2_app; [clear; induction pre; constructor; auto using alike_refl|]. constructor; [split; reflexivity|]. clear. induction post; constructor; auto using alike_refl. }
  assert (At : alike t (add_key k t)) by (split; reflexivity).
  assert (It : In (add_key k t) ts') by (apply in_or_app; right; left; reflexivity).
  (* the children and their keys *)
  assert (Up : forall child fk, In child ts -> In fk (g_fkeys child) -> exists child', In child' ts' /\ In fk (g_fkeys child') /\ alike child child').
  { intros child fk H Hf. apply in_app_or in H. destruct H as [H|[<-|H]].
    - exists child. split; [apply in_or_app; auto|]. auto using alike_refl.
    - exists (add_key k t). split; [exact It|]. split; [apply in_or_app; left; exact Hf|exact At].
    - exists child. split; [apply in_or_app; right; right; exact H|]. auto using alike_refl. }
  assert (Down : forall child fk, In child ts' -> In fk (g_fkeys child) -> (exists child', In child' ts /\ In fk (g_fkeys child') /\ alike child child') \/ child = add_key k t /\ fk = k).
  { intros child fk H Hf. apply in_app_or in H. destruct H as [H|[<-|H]].
    - left. exists child. split; [apply in_or_app; auto|]. auto using alike_refl.
    - cbn [add_key g_fkeys] in Hf. apply in_app_or in Hf. destruct Hf as [Hf|[<-|[]]]; [|right; auto]. left. exists t. split; [apply in_or_app; right; left; reflexivity|]. auto using alike_sym.
    - left. exists child. split; [apply in_or_app; right; right; exact H|]. auto using alike_refl. }
  pose proof (alike_list_sym _ _ Al) as Al'.
  rewrite !by_key. split.
  - intros (R & K & St). split; [split; [|split]|].
    + intros child fk H Hf Hs. destruct (Up child fk H Hf) as (child' & H' & Hf' & A). destruct (R child' fk H' Hf' Hs) as (x & _ & _ & _ & r & Er & L).
      destruct (last_alike _ _ _ _ Al' L) as (y & Ly & _). exists y. repeat split; auto. exists r. auto.
    + intros child fk x (H & Hf & Hs & r & Er & L). destruct (Up child fk H Hf) as (child' & H' & Hf' & A). destruct (last_alike _ _ _ _ Al L) as (y & Ly & Ay).
      apply (key_alike _ _ child' child fk y x); [apply alike_sym, A|apply alike_sym, Ay|]. apply K. repeat split; auto. exists r. auto.
    + intros E. destruct (St E) as (X & Y). split.
      * intros c Hc Nf. destruct (g_fkeys c) as [|fk fks] eqn:Ef; [contradiction|]. destruct (Up c fk Hc) as (c' & Hc' & Hf' & [A1 A2 A3]); [rewrite Ef; left; reflexivity|].
        rewrite <- A3. apply X; [exact Hc'|]. intros D. rewrite D in Hf'. destruct Hf'.
      * intros c fk line d Hc Hf Hd. destruct (Up c fk Hc Hf) as (c' & Hc' & Hf' & [A1 A2 A3]). eapply (Y c' fk line d Hc' Hf'). unfold rows_of in *. rewrite A3. exact Hd.
    + assert (Ik : In k (g_fkeys (add_key k t))) by (apply in_or_app; right; left; reflexivity).
      destruct (R _ k It Ik Sk) as (x & Rx). pose proof Rx as (_ & _ & _ & r & Er & L). destruct (last_alike _ _ _ _ Al' L) as (y & Ly & Ay).
      exists r, y. split; [exact Er|]. split; [exact Ly|]. apply (key_alike _ _ (add_key k t) t k x y); [apply alike_sym, At|exact Ay|]. apply K, Rx.
  - intros ((R & K & St) & r & x & Er & L & Kx). split; [|split].
    + intros child fk H Hf Hs. destruct (Down child fk H Hf) as [(c & Hc & Hfc & A)|[-> ->]].
      * destruct (R c fk Hc Hfc Hs) as (y & _ & _ & _ & r' & Er' & Ly). destruct (last_alike _ _ _ _ Al Ly) as (z & Lz & _). exists z. repeat split; auto. exists r'. auto.
      * destruct (last_alike _ _ _ _ Al L) as (z & Lz & _). exists z. repeat split; auto. exists r. auto.
    + intros child fk y (H & Hf & Hs & r' & Er' & Ly). destruct (Down child fk H Hf) as [(c & Hc & Hfc & A)|[-> ->]]; destruct (last_alike _ _ _ _ Al' Ly) as (z & Lz & Az).
      * apply (key_alike _ _ c child fk z y); [apply alike_sym, A|apply alike_sym, Az|]. apply K. repeat split; auto. exists r'. auto.
      * assert (z = x).
        { assert (r' = r) by congruence. subst r'. clear -L Lz. destruct L as (p1 & q1 & E1 & N1 & M1), Lz as (p2 & q2 & E2 & N2 & M2).
          rewrite E1 in E2. clear E1. revert p2 E2. induction p1 as [|a p1 IH]; intros [|b p2] E2.
          - injection E2 as E2 _. congruence.
          - injection E2 as -> E2. exfalso. apply (M1 z); [rewrite E2; apply in_or_app; right; left; reflexivity|exact N2].
          - injection E2 as -> E2. exfalso. apply (M2 x); [rewrite <- E2; apply in_or_app; right; left; reflexivity|exact N1].
          - injection E2 as -> E2. eapply IH, E2. }
        subst z. apply (key_alike _ _ t (add_key k t) k x y); [exact At|apply alike_sym, Az|exact Kx].
    + intros E. destruct (St E) as (X & Y). destruct (kh_strict _ _ _ _ _ _ Kx E) as (S1 & S2). split.
      * intros c Hc Nf. destruct (g_fkeys c) as [|fk fks] eqn:Ef; [contradiction|]. destruct (Down c fk Hc) as [(c' & Hc' & Hf' & [A1 A2 A3])|[-> _]]; [rewrite Ef; left; reflexivity| |exact S1].
        rewrite <- A3. apply X; [exact Hc'|]. intros D. rewrite D in Hf'. destruct Hf'.
      * intros c fk line d Hc Hf Hd. destruct (Down c fk Hc Hf) as [(c' & Hc' & Hf' & [A1 A2 A3])|[-> ->]]; [|eapply S2, Hd]. eapply (Y c' fk line d Hc' Hf'). unfold rows_of in *. rewrite A3. exact Hd.
Qed.
End Check.
