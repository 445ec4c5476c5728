(** A cleaned common property is accepted again. *)
From Verif Require Import PyStr Dsv Json Meta MetaSpec MetaProofs.
From Coq Require Import Permutation.
Local Open Scope nat_scope.

Section Clean.
Variable tag_ok : pystr -> bool.
Notation clean := (clean tag_ok).

Definition clean_item (kv : pystr * json) : list (pystr * json) :=
  let (k, x) := kv in
  if str_eq_dec k (lit "@id") then [(k, match x with JStr s => JStr s | _ => JNull end)]
  else if str_eq_dec k (lit "@language") then
    match x with JStr s => if tag_ok s then [(k, x)] else [] | _ => [] end
  else [(k, clean x)].
Lemma clean_items_flat kvs : clean_items tag_ok kvs = flat_map clean_item kvs.
Proof.
  induction kvs as [|[k x] kvs IH]; [reflexivity|]. cbn [clean_items flat_map clean_item].
  destruct (str_eq_dec k (lit "@id")); [rewrite IH; reflexivity|].
  destruct (str_eq_dec k (lit "@language")); [|rewrite IH; reflexivity].
  destruct x; try (rewrite IH; reflexivity). destruct (tag_ok s); rewrite IH; reflexivity.
Qed.
Lemma clean_item_In k' x' kv : In (k', x') (clean_item kv) -> fst kv = k' /\
  (k' = lit "@id" /\ x' = match snd kv with JStr s => JStr s | _ => JNull end \/
   k' = lit "@language" /\ x' = snd kv /\ is_language tag_ok x' \/
   k' <> lit "@id" /\ k' <> lit "@language" /\ x' = clean (snd kv)).
Proof.
  destruct kv as [k x]. cbn [clean_item fst snd]. destruct (str_eq_dec k (lit "@id")) as [E|N1].
  - intros [H|[]]. injection H as <- <-. auto.
  - destruct (str_eq_dec k (lit "@language")) as [E|N2].
    + destruct x as [| | | |s| |]; try intros []. destruct (tag_ok s) eqn:T; [|intros []].
      intros [H|[]]. injection H as <- <-. split; [reflexivity|]. right; left. split; [exact E|]. split; [reflexivity|]. exists s; auto.
    + intros [H|[]]. injection H as <- <-. auto 6.
Qed.
Lemma clean_In k' x' kvs : In (k', x') (clean_items tag_ok kvs) -> exists x, In (k', x) kvs /\
  (k' = lit "@id" /\ x' = match x with JStr s => JStr s | _ => JNull end \/
   k' = lit "@language" /\ x' = x /\ is_language tag_ok x' \/
   k' <> lit "@id" /\ k' <> lit "@language" /\ x' = clean x).
Proof.
  rewrite clean_items_flat, in_flat_map. intros ([k x] & H & H'). apply clean_item_In in H'. cbn [fst snd] in H'.
  destruct H' as [-> H']. eauto.
Qed.
Lemma clean_keys k kvs : In k (map fst (clean_items tag_ok kvs)) -> In k (map fst kvs).
Proof.
  rewrite !in_map_iff. intros ([k' x'] & E & H). apply clean_In in H. destruct H as (x & H & _). exists (k', x). auto.
Qed.
Lemma clean_keys_keep k x kvs : k <> lit "@language" -> In (k, x) kvs -> In k (map fst (clean_items tag_ok kvs)).
Proof.
  intros N H. rewrite clean_items_flat, in_map_iff.
  assert (E : exists y, In (k, y) (clean_item (k, x))).
  { cbn [clean_item]. destruct (str_eq_dec k (lit "@id")); [eexists; left; reflexivity|].
    destruct (str_eq_dec k (lit "@language")); [contradiction|]. eexists; left; reflexivity. }
  destruct E as [y E]. exists (k, y). split; [reflexivity|]. apply in_flat_map. eauto.
Qed.
Lemma clean_nodup kvs : NoDup (map fst kvs) -> NoDup (map fst (clean_items tag_ok kvs)).
Proof.
  rewrite clean_items_flat. induction kvs as [|[k x] kvs IH]; [auto|]. cbn [map fst flat_map]. intros N.
  apply NoDup_cons_iff in N. destruct N as [N1 N2]. specialize (IH N2). rewrite map_app.
  assert (G : map fst (clean_item (k, x)) = [] \/ map fst (clean_item (k, x)) = [k]).
  { cbn [clean_item]. destruct (str_eq_dec k (lit "@id")); [auto|]. destruct (str_eq_dec k (lit "@language")); [|auto].
    destruct x; auto. destruct (tag_ok s); auto. }
  destruct G as [->| ->]; [exact IH|]. cbn [app]. constructor; [|exact IH]. intros H. apply N1.
  rewrite <- clean_items_flat in H. apply clean_keys in H. exact H.
Qed.

Lemma clean_object_ok kvs : NoDup (map fst kvs) -> object_ok kvs -> object_ok (clean_items tag_ok kvs).
Proof.
  intros N [H1 H2 H3 H4 H5]. split.
  - intros k Hk. apply H1, clean_keys, Hk.
  - intros v' Hv. apply clean_In in Hv. destruct Hv as (v & Hv & [[C _]|[[C _]|(_ & _ & ->)]]); [discriminate C|discriminate C|].
    destruct (H2 v Hv) as [E|[(k & x & Hk & Hp) Ha]].
    + left. rewrite E. reflexivity.
    + assert (Cv : clean v = v) by (destruct Ha as [[s ->]|[[b ->]|[z ->]]]; reflexivity). rewrite Cv.
      assert (P : Permutation (clean_items tag_ok kvs) (clean_items tag_ok [(lit "@value", v); (k, x)])).
      { rewrite !clean_items_flat. apply Permutation_flat_map, Hp. }
      cbn [clean_items] in P. destruct (str_eq_dec (lit "@value") (lit "@id")) as [D|_]; [discriminate D|].
      destruct (str_eq_dec (lit "@value") (lit "@language")) as [D|_]; [discriminate D|]. rewrite Cv in P.
      destruct Hk as [->| ->].
      * destruct (str_eq_dec (lit "@language") (lit "@id")) as [D|_]; [discriminate D|].
        destruct (str_eq_dec (lit "@language") (lit "@language")) as [_|D]; [|congruence].
        assert (Q : (exists s, x = JStr s /\ tag_ok s = true) \/ Permutation (clean_items tag_ok kvs) [(lit "@value", v)]).
        { destruct x as [| | | |s| |]; try (right; exact P). destruct (tag_ok s) eqn:T; [left; eauto|right; exact P]. }
        destruct Q as [(s & -> & T)|Q].
        -- rewrite T in P. right. split; [|exact Ha]. exists (lit "@language"), (JStr s). auto.
        -- left. apply Permutation_sym, Permutation_length_1_inv in Q. exact Q.
      * destruct (str_eq_dec (lit "@type") (lit "@id")) as [D|_]; [discriminate D|].
        destruct (str_eq_dec (lit "@type") (lit "@language")) as [D|_]; [discriminate D|].
        right. split; [|exact Ha]. exists (lit "@type"), (clean x). auto.
  - intros Hl. apply clean_keys, H3 in Hl. apply in_map_iff in Hl. destruct Hl as ([k x] & E & Hl). cbn [fst] in E. subst k.
    eapply clean_keys_keep; [|exact Hl]. discriminate.
  - intros r Hr. apply clean_In in Hr. destruct Hr as (x & Hx & [[_ E]|[[C _]|(C & _)]]); [|discriminate C|congruence].
    destruct x; try discriminate E. injection E as <-. apply (H4 r Hx).
  - intros v Hv. apply clean_In in Hv. destruct Hv as (x & Hx & [[C _]|[[C _]|(_ & _ & ->)]]); [discriminate C|discriminate C|].
    destruct (H5 x Hx) as [[l ->]|[[o ->]|(s & -> & K)]]; [left; eexists; reflexivity|right; left; eexists; reflexivity|].
    right; right. exists s. split; [reflexivity|exact K].
Qed.

Lemma clean_wf v : wf_json v -> wf_json (clean v).
Proof.
  induction v as [| | | | |l IH|kvs IH] using json_ind'; intros W; try exact I.
  - cbn [MetaSpec.clean]. apply wf_list. rewrite wf_list in W. rewrite Forall_forall in IH.
    intros y Hy. apply in_map_iff in Hy. destruct Hy as (x & <- & Hx). apply IH; auto.
  - rewrite clean_obj. apply wf_obj. apply wf_obj in W. destruct W as [N W]. split; [apply clean_nodup, N|].
    rewrite Forall_forall in IH. intros k x' Hx. apply clean_In in Hx. destruct Hx as (x & Hx & [[_ ->]|[(_ & _ & (s & -> & _))|(_ & _ & ->)]]).
    + destruct x; exact I.
    + exact I.
    + apply (IH _ Hx), (W _ _ Hx).
Qed.
Lemma clean_common_ok v : wf_json v -> common_ok v -> common_ok (clean v).
Proof.
  induction v as [| | | | |l IH|kvs IH] using json_ind'; intros W H; try exact H.
  - cbn [MetaSpec.clean]. apply ok_list. rewrite ok_list in H. rewrite wf_list in W. rewrite Forall_forall in IH.
    intros y Hy. apply in_map_iff in Hy. destruct Hy as (x & <- & Hx). apply IH; auto.
  - rewrite clean_obj. apply ok_obj. apply ok_obj in H. destruct H as [H1 H2]. apply wf_obj in W. destruct W as [N W].
    split; [apply clean_object_ok; assumption|]. rewrite Forall_forall in IH. intros k x' Hx N1 N2. apply clean_In in Hx.
    destruct Hx as (x & Hx & [[C _]|[[C _]|(_ & _ & ->)]]); [contradiction|contradiction|].
    apply (IH _ Hx); eauto.
Qed.
End Clean.
