(** C49: framing of JSON-LD. *)
From Coq Require Import Permutation.
From Verif Require Import PyStr Dsv DsvProofs4 Json Jsonld JsonldSpec JsonldProofs FrameProofs.

(** The result has, in order, the objects made of the items other than those which are referred to once, with those in the place of the reference. *)
Theorem c49_framed data : flat data -> exists tops,
  Forall2 (framed data) tops (frame data) /\ exists keep, tops = filter keep data /\ forall o i, In o data -> id_of o = Some i -> (keep o = true <-> ~ single data i).
Proof.
  intros F. destruct (fl_ids _ F) as (ids & E & N). exists (tops data). split.
  - rewrite frame_tops. rewrite (tops_spec data ids E N).
    assert (G : forall d l, map id_of d = map Some l -> (forall o, In o d -> In o data) -> (forall i, In i l -> In i ids) ->
      Forall2 (framed data) (filter (fun o => match id_of o with Some i => negb (inlined data i) | None => true end) d)
        (map (expand data (length data)) (filter (fun o => match id_of o with Some i => negb (inlined data i) | None => true end) d))).
    { induction d as [|o d IH]; intros l Ed S1 S2; destruct l as [|i l]; try discriminate Ed; [constructor|]. cbn [map] in Ed. injection Ed as E1 E2. cbn [filter]. rewrite E1.
      assert (IH' := IH l E2 (fun o' Io' => S1 o' (or_intror Io')) (fun i' Ii' => S2 i' (or_intror Ii'))). destruct (negb (inlined data i)) eqn:En; [|exact IH']. cbn [map]. constructor; [|exact IH'].
      apply (expand_framed data F ids E N (length data) o i); [apply S1; left; reflexivity|exact E1|]. apply (roots_done data F ids E N). apply filter_In. split; [apply S2; left; reflexivity|exact En]. }
    apply (G data ids E); auto.
  - exists (fun o => match id_of o with Some i => negb (inlined data i) | None => true end). split; [apply (tops_spec data ids E N)|].
    intros o i Io Ei. rewrite Ei. rewrite <- (inlined_single data F ids E N i). destruct (inlined data i); cbn [negb]; split; congruence.
Qed.
(** No subject is described twice; those described are the items not referred to just once, and what these contain, *)
Theorem c49_once data : flat data -> NoDup (flat_map (fun o => nodes (JObj o)) (frame data)) /\ forall i, In i (flat_map (fun o => nodes (JObj o)) (frame data)) <-> reached data i.
Proof.
  intros F. destruct (fl_ids _ F) as (ids & E & N). pose proof (frame_nodes data F ids E N) as P. split.
  - apply (Permutation_NoDup (Permutation_sym P)). apply (all_ids data F ids E N).
  - intros i. rewrite <- (all_iff data F ids E N i). split; apply Permutation_in; [exact P|apply Permutation_sym, P].
Qed.
(** which is all of them, if the references have no cycles. *)
Theorem c49_all data (rank : pystr -> nat) : flat data ->
  (forall o j i, In o data -> id_of o = Some j -> In i (refers_to o) -> (rank j < rank i)%nat) ->
  exists ids, map id_of data = map Some ids /\ Permutation (flat_map (fun o => nodes (JObj o)) (frame data)) ids.
Proof.
  intros F R. destruct (fl_ids _ F) as (ids & E & N). exists ids. split; [exact E|]. destruct (c49_once data F) as [D H]. apply NoDup_Permutation; [exact D|exact N|].
  assert (A : forall n i, (rank i < n)%nat -> In i ids -> reached data i).
  { induction n as [|n IH]; intros i Hn Ii; [lia|]. apply (item_ids data ids E N) in Ii. destruct Ii as [o Ho]. apply (item_iff data ids E N) in Ho. destruct Ho as [Io Eo].
    destruct (inlined data i) eqn:Ei.
    - pose proof (proj1 (inlined_single data F ids E N i) Ei) as S. pose proof S as [S1 _].
      assert (X : exists x, In x (filter (str_eqb i) (flat_map refers_to data))) by (destruct (filter (str_eqb i) (flat_map refers_to data)) as [|x l]; [discriminate S1|exists x; left; reflexivity]).
      destruct X as [x Ix]. apply filter_In in Ix. destruct Ix as [Ix Ex]. apply str_eqb_eq in Ex. subst x. apply in_flat_map in Ix. destruct Ix as (o' & Io' & Ir).
      assert (Y : In (id_of o') (map Some ids)) by (rewrite <- E; apply in_map, Io'). apply in_map_iff in Y. destruct Y as (j & Ej & Ij). symmetry in Ej.
      apply (reached_step data o' j i Io' Ej); [|exact Ir|exact S]. apply IH; [|exact Ij]. pose proof (R o' j i Io' Ej Ir). lia.
    - apply (reached_root data o i Io Eo). intros S. apply (inlined_single data F ids E N) in S. rewrite S in Ei. discriminate Ei. }
  intros i. rewrite H. split; [|apply (A (S (rank i)) i); lia].
  intros X. apply (item_ids data ids E N). destruct X as [o j Io Eo _|o j k _ _ _ _ [_ (o' & Io' & Eo')]]; [exists o; apply (item_iff data ids E N); auto|exists o'; apply (item_iff data ids E N); auto].
Qed.
Definition ref_to (s : String.string) : json := JObj [(lit "@id", JStr (lit s))].
Definition value_of (s : String.string) : json := JObj [(lit "@value", JStr (lit s))].
Definition ex_data : list jobj :=
  [ [(lit "@id", JStr (lit "a")); (lit "p", JList [ref_to "b"; value_of "1"])];
    [(lit "@id", JStr (lit "b")); (lit "q", JList [ref_to "c"]); (lit "r", JList [ref_to "d"])];
    [(lit "@id", JStr (lit "c")); (lit "q", JList [value_of "2"; ref_to "d"])];
    [(lit "@id", JStr (lit "d")); (lit "q", JList [value_of "3"])] ].
Ltac flat_tac := constructor;
  [first [eexists [_; _; _; _]; split; [reflexivity|]|eexists [_; _]; split; [reflexivity|]|eexists [_]; split; [reflexivity|]]; [repeat (constructor; [intros X; repeat (destruct X as [X|X]; [discriminate X|]); destruct X|]); constructor]
  |intros o Io; repeat (destruct Io as [<-|Io]; [split; [cbn; lia|repeat (constructor; [intros X; repeat (destruct X as [X|X]; [discriminate X|]); destruct X|]); constructor]|]); destruct Io
  |intros o k v Io Ik Nk; repeat (destruct Io as [<-|Io]; [repeat (destruct Ik as [Ik|Ik]; [injection Ik as <- <-; first [contradiction Nk; reflexivity|eexists; split; [reflexivity|]; repeat (constructor; [first [left; eexists; split; [|reflexivity]; discriminate|right; eexists; split; [reflexivity|]; split; [reflexivity|intros kv [<-|[]]; exact I]]|]); constructor]|]); destruct Ik|]); destruct Io].
Lemma ex_flat : flat ex_data.
Proof. flat_tac. Qed.
Example c49_nonvacuous : flat ex_data /\ (exists rank : pystr -> nat, forall o j i, In o ex_data -> id_of o = Some j -> In i (refers_to o) -> (rank j < rank i)%nat) /\
  frame ex_data =
  [ [(lit "@id", JStr (lit "a")); (lit "p", JList [JObj [(lit "@id", JStr (lit "b")); (lit "q", JList [JObj [(lit "@id", JStr (lit "c")); (lit "q", JList [value_of "2"; ref_to "d"])]]); (lit "r", JList [ref_to "d"])]; value_of "1"])];
    [(lit "@id", JStr (lit "d")); (lit "q", JList [value_of "3"])] ].
Proof.
  split; [exact ex_flat|]. split; [|vm_compute; reflexivity]. exists (fun s => match s with c :: _ => N.to_nat (c - 97) | [] => 0%nat end).
  intros o j i Io Ej Ii. repeat (destruct Io as [<-|Io]; [vm_compute in Ej; injection Ej as <-; vm_compute in Ii; repeat (destruct Ii as [<-|Ii]; [vm_compute; lia|]); destruct Ii|]). destruct Io.
Qed.
(** Items that refer to each other, or to themselves, are lost. *)
Definition ex_cycle : list jobj :=
  [ [(lit "@id", JStr (lit "a")); (lit "spouse", JList [ref_to "b"])]; [(lit "@id", JStr (lit "b")); (lit "spouse", JList [ref_to "a"])] ].
Theorem c49_cycle_refuted : flat ex_cycle /\ frame ex_cycle = [].
Proof. split; [flat_tac|vm_compute; reflexivity]. Qed.
Theorem c49_self_refuted : let data := [[(lit "@id", JStr (lit "a")); (lit "p", JList [value_of "1"; ref_to "a"])]] in flat data /\ frame data = [].
Proof. cbn zeta. split; [flat_tac|vm_compute; reflexivity]. Qed.
Print Assumptions c49_framed. Print Assumptions c49_once. Print Assumptions c49_all. Print Assumptions c49_cycle_refuted.
