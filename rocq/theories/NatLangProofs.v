(** C26: inheritance; C36: NaturalLanguage. *)
From Verif Require Import PyStr Dsv DsvProofs4 Json NatLang Column ColumnSpec ColumnProofs.
From Coq Require Import Lia FinFun.

(** ** C26 *)
Section Inherit.
Context {V A : Type} (get : desc V -> option A).
Lemma inherit_nearest : forall ps d, nearest get (d :: ps) (inherit get d ps).
Proof.
  induction ps as [|p ps IH]; intros d; cbn [inherit]; destruct (get d) as [a|] eqn:E.
  - apply (nearest_some get [] d [] a); [intros ? []|exact E].
  - apply nearest_none. intros d' [<-|[]]. exact E.
  - apply (nearest_some get [] d (p :: ps) a); [intros ? []|exact E].
  - destruct (IH p) as [ds H|b d' af a H1 H2].
    + apply nearest_none. intros d' [<-|Hd]; [exact E|apply H, Hd].
    + apply (nearest_some get (d :: b) d' af a); [|exact H2]. intros x [<-|Hx]; [exact E|apply H1, Hx].
Qed.
Lemma nearest_unique ds r1 r2 : nearest get ds r1 -> nearest get ds r2 -> r1 = r2.
Proof.
  intros H1. revert r2. destruct H1 as [ds H|b d af a H1 H2]; intros r2 H'.
  - inversion H' as [|b d af a Hb Hg E]; subst; [reflexivity|].
    rewrite H in Hg by (apply in_or_app; right; left; reflexivity). discriminate.
  - revert H'. remember (b ++ d :: af) as ds eqn:E. intros H'. destruct H' as [ds H|b' d' af' a' H1' H2'].
    + rewrite H in H2 by (rewrite E; apply in_or_app; right; left; reflexivity). discriminate.
    + revert b' E H1'. induction b as [|x b IH]; intros [|y b'] E H1'; cbn in E.
      * injection E as -> _. congruence.
      * injection E as -> _. rewrite H1' in H2 by (left; reflexivity). discriminate.
      * injection E as <- _. rewrite H1 in H2' by (left; reflexivity). discriminate.
      * injection E as -> E. apply (IH (fun d' H => H1 d' (or_intror H)) b' E). intros d'' H; apply H1'; right; exact H.
Qed.
Lemma inherit_iff d ps r : nearest get (d :: ps) r <-> inherit get d ps = r.
Proof.
  split; [|intros <-; apply inherit_nearest].
  intros H. eapply nearest_unique; [apply inherit_nearest|exact H].
Qed.
End Inherit.

Lemma inherit_null_eq {V} : forall ps (d : desc V), inherit_null d ps = getdef (inherit own_null d ps) [[]].
Proof.
  induction ps as [|p ps IH]; intros d; cbn [inherit_null inherit]; unfold own_null at 1;
    destruct (list_eq_dec str_eq_dec (de_null d) [[]]) as [E|E].
  - rewrite E. reflexivity.
  - cbn [getdef]. destruct (de_null d) as [|[|x s] [|y l]]; try reflexivity; exfalso; apply E; reflexivity.
  - rewrite E. apply IH.
  - cbn [getdef]. destruct (de_null d) as [|[|x s] [|y l]]; try reflexivity; exfalso; apply E; reflexivity.
Qed.
Lemma null_nearest {V} (d : desc V) ps r : nearest own_null (d :: ps) r -> inherit_null d ps = getdef r [[]].
Proof. intros H. apply inherit_iff in H. rewrite inherit_null_eq, H. reflexivity. Qed.

(** ** C36 *)
Lemma titles_add nl t l lang : titles (nl_add nl t l) lang = titles nl lang ++ (if dkey_eqb lang l then [t] else []).
Proof.
  unfold titles, nl_add. rewrite (dget_dset _ dkey_eqb_ok). destruct (dkey_eqb lang l) eqn:E.
  - apply dkey_eqb_ok in E. subst l. reflexivity.
  - rewrite app_nil_r. reflexivity.
Qed.
Lemma titles_history hist : forall nl lang,
  titles (add_all nl hist) lang = titles nl lang ++ map fst (filter (fun e => dkey_eqb lang (snd e)) hist).
Proof.
  induction hist as [|[t l] hist IH]; intros nl lang; cbn [add_all filter map snd fst].
  - rewrite app_nil_r. reflexivity.
  - rewrite IH, titles_add, <- app_assoc. f_equal. destruct (dkey_eqb lang l); reflexivity.
Qed.

Definition tag_keys (nl : natlang) : list pystr := flat_map (fun kv => match fst kv with Some k => [k] | None => [] end) nl.
Lemma titles_one_or_list l : titles_of (one_or_list l) = l.
Proof.
  assert (H : forall l, strings (map JStr l) = l) by (induction l0; cbn; [reflexivity|f_equal; assumption]).
  destruct l as [|a [|b l]]; try reflexivity. unfold titles_of, one_or_list. apply (H (a :: b :: l)).
Qed.
Section Round.
Variable tag_ok : pystr -> bool.

Lemma init_obj (nl : list (pystr * list pystr)) : Forall (fun kv => tag_ok (fst kv) = true) nl ->
  nl_init tag_ok (JObj (map (fun kv => (fst kv, one_or_list (snd kv))) nl)) = Ok (map (fun kv => (Some (fst kv), snd kv)) nl).
Proof.
  intros H. cbn [nl_init]. rewrite mapM_map. apply mapM_Ok_iff. induction H as [|[k v] nl Hk H IH]; cbn [map]; constructor; auto.
  cbn [fst snd] in *. rewrite Hk, titles_one_or_list. reflexivity.
Qed.
Lemma strings_id l : forallb is_str l = true -> map JStr (strings l) = l.
Proof. induction l as [|[] l IH]; cbn; intros H; try discriminate; [reflexivity|f_equal; apply IH, H]. Qed.
Lemma all_str l : forallb is_str (map JStr l) = true.
Proof. induction l; cbn; auto. Qed.
Lemma strings_map l : strings (map JStr l) = l.
Proof. induction l; cbn; [reflexivity|f_equal; assumption]. Qed.

(** maps whose keys are all languages, or only the plain title *)
Lemma nl_roundtrip (nl : natlang) : NoDup (map fst nl) -> Forall (fun k => tag_ok k = true) (tag_keys nl) ->
  map fst nl = [None] \/ ~ In None (map fst nl) -> nl_init tag_ok (nl_asdict nl) = Ok nl.
Proof.
  intros Hnd Htag [H|H].
  - destruct nl as [|[k v] [|? ?]]; try discriminate. cbn in H. injection H as ->. cbn [nl_asdict].
    destruct v as [|a [|b v]]; try reflexivity. cbn [one_or_list nl_init]. rewrite all_str, strings_map. reflexivity.
  - assert (Hx : exists pl : list (pystr * list pystr), nl = map (fun kv => (Some (fst kv), snd kv)) pl).
    { clear Hnd Htag. induction nl as [|[[k|] v] nl IH]; [exists []; reflexivity| |].
      - destruct IH as [pl ->]; [intros Hi; apply H; right; exact Hi|]. exists ((k, v) :: pl). reflexivity.
      - exfalso. apply H. left; reflexivity. }
    destruct Hx as [pl ->].
    assert (Hne : nl_asdict (map (fun kv => (Some (fst kv), snd kv)) pl) = JObj (map (fun kv => (fst kv, one_or_list (snd kv))) pl)).
    { assert (E : nl_asdict (map (fun kv => (Some (fst kv), snd kv)) pl)
                  = JObj (dset_all str_eqb [] (map (fun kv => (fst kv, one_or_list (snd kv))) pl))).
      { destruct pl as [|[k v] pl]; [reflexivity|]. cbn [map nl_asdict fst snd]. do 3 f_equal. rewrite map_map. reflexivity. }
      rewrite E. f_equal. rewrite (dset_all_new _ str_eqb_eq); [reflexivity|].
      cbn [map app]. rewrite map_map. cbn [fst].
      rewrite map_map in Hnd. cbn [fst] in Hnd. rewrite <- (map_map fst Some) in Hnd. apply NoDup_map_inv in Hnd. exact Hnd. }
    rewrite Hne. apply init_obj. unfold tag_keys in Htag. clear -Htag. induction pl as [|[k v] pl IH]; constructor.
    + cbn in Htag. inversion Htag; assumption.
    + apply IH. cbn in Htag. inversion Htag; assumption.
Qed.

(** whatever the constructor accepts *)
Lemma nl_init_roundtrip v nl : distinct_keys v -> nl_init tag_ok v = Ok nl -> nl_init tag_ok (nl_asdict nl) = Ok nl.
Proof.
  intros Hd H. apply nl_roundtrip.
  - destruct v; cbn in H; try discriminate.
    + injection H as <-. cbn. repeat constructor. intros [].
    + destruct (forallb is_str l); injection H as <-; cbn; repeat constructor; intros [].
    + apply mapM_Ok_inv in H. cbn in Hd. assert (E : map fst nl = map (fun kv => Some (fst kv)) kvs).
      { clear Hd. induction H as [|[k v] y kvs nl Hx H IH]; [reflexivity|]. cbn in *. destruct (tag_ok k); [|discriminate]. injection Hx as <-. cbn. f_equal. exact IH. }
      rewrite E, <- (map_map fst Some). apply Injective_map_NoDup; [intros a b; congruence|exact Hd].
  - destruct v; cbn in H; try discriminate.
    + injection H as <-. constructor.
    + destruct (forallb is_str l); injection H as <-; constructor.
    + apply mapM_Ok_inv in H. clear Hd. induction H as [|[k v] y kvs nl Hx H IH]; [constructor|].
      cbn in Hx. destruct (tag_ok k) eqn:E; [|discriminate]. injection Hx as <-. cbn. constructor; assumption.
  - destruct v; cbn in H; try discriminate.
    + injection H as <-. left; reflexivity.
    + destruct (forallb is_str l); injection H as <-; [left; reflexivity|right; intros []].
    + right. apply mapM_Ok_inv in H. clear Hd. induction H as [|[k v] y kvs nl Hx H IH]; [intros []|].
      cbn in Hx. destruct (tag_ok k) eqn:E; [|discriminate]. injection Hx as <-. cbn. intros [Hc|Hc]; [discriminate|tauto].
Qed.

Lemma nl_mixed (nl : natlang) : tag_ok (lit "und") = true -> NoDup (map fst nl) ->
  Forall (fun k => tag_ok k = true) (tag_keys nl) -> In None (map fst nl) -> map fst nl <> [None] ->
  ~ In (Some (lit "und")) (map fst nl) -> nl_init tag_ok (nl_asdict nl) = Ok (und_for_none nl).
Proof.
  intros Hund Hnd Htag Hin Hne Hnu.
  set (f := fun kv : option pystr * list pystr => (match fst kv with None => lit "und" | Some k => k end, snd kv)).
  set (pl := map f nl).
  assert (Hpl : NoDup (map fst pl)).
  { unfold pl. rewrite map_map. unfold f. cbn [fst]. clear -Hnd Hnu.
    induction nl as [|[k v] nl IH]; cbn; [constructor|]. cbn in Hnd, Hnu. inversion Hnd as [|? ? H1 H2]; subst. constructor.
    - intros Hi. apply in_map_iff in Hi. destruct Hi as ([k' v'] & E & Hi). cbn in E.
      assert (Hk' : In k' (map fst nl)) by (apply in_map_iff; exists (k', v'); auto).
      destruct k as [k|], k' as [k'|]; subst; try tauto.
    - apply IH; tauto. }
  assert (E : nl_asdict nl = JObj (map (fun kv => (fst kv, one_or_list (snd kv))) pl)).
  { unfold nl_asdict. destruct nl as [|[k v] nl]; [contradiction|].
    assert (E : match (k, v) :: nl with [(None, v)] => one_or_list v | _ => JObj (dset_all str_eqb [] (map (fun kv => (match fst kv with None => lit "und" | Some k => k end, one_or_list (snd kv))) ((k, v) :: nl))) end
      = JObj (dset_all str_eqb [] (map (fun kv => (match fst kv with None => lit "und" | Some k => k end, one_or_list (snd kv))) ((k, v) :: nl)))).
    { destruct k as [k|]; [reflexivity|]. destruct nl; [cbn in Hne; congruence|reflexivity]. }
    rewrite E. f_equal. unfold pl. rewrite map_map. unfold f. cbn [fst snd].
    rewrite (dset_all_new _ str_eqb_eq); [reflexivity|]. cbn [app map fst snd]. rewrite map_map. cbn [fst].
    unfold pl in Hpl. rewrite map_map in Hpl. exact Hpl. }
  rewrite E, init_obj.
  - unfold und_for_none, pl. rewrite map_map. reflexivity.
  - unfold pl. apply Forall_forall. intros x Hx. apply in_map_iff in Hx. destruct Hx as ([k v] & <- & Hi). unfold f. cbn [fst].
    destruct k as [k|]; [|exact Hund]. rewrite Forall_forall in Htag. apply Htag. unfold tag_keys. apply in_flat_map.
    exists (Some k, v). split; [exact Hi|left; reflexivity].
Qed.

Lemma dset_keys {W} (d : list (option pystr * W)) k v : In k (map fst (dset dkey_eqb d k v)) /\
  (forall x, In x (map fst (dset dkey_eqb d k v)) <-> x = k \/ In x (map fst d)) /\ (NoDup (map fst d) -> NoDup (map fst (dset dkey_eqb d k v))).
Proof.
  assert (H : forall x, In x (map fst (dset dkey_eqb d k v)) <-> x = k \/ In x (map fst d)).
  { induction d as [|[k0 v0] d IH]; intros x; cbn; [firstorder|]. destruct (dkey_eqb k k0) eqn:E; cbn.
    - apply dkey_eqb_ok in E. subst. firstorder.
    - rewrite IH. firstorder. }
  split; [apply H; left; reflexivity|]. split; [exact H|].
  induction d as [|[k0 v0] d IH]; cbn; [repeat constructor; intros []|].
  intros Hnd. inversion Hnd as [|? ? H1 H2]; subst. destruct (dkey_eqb k k0) eqn:E; cbn.
  - constructor; assumption.
  - constructor; [|apply IH; [|exact H2]].
    + intros Hi. assert (Hk : forall x, In x (map fst (dset dkey_eqb d k v)) <-> x = k \/ In x (map fst d)).
      { clear. induction d as [|[k0 v0] d IH]; intros x; cbn; [firstorder|]. destruct (dkey_eqb k k0) eqn:E; cbn.
        - apply dkey_eqb_ok in E. subst. firstorder.
        - rewrite IH. firstorder. }
      apply Hk in Hi. destruct Hi as [->|Hi]; [|tauto].
      assert (dkey_eqb k k = true) by (apply dkey_eqb_ok; reflexivity). congruence.
    + clear. intros x. induction d as [|[k0 v0] d IH]; cbn; [firstorder|]. destruct (dkey_eqb k k0) eqn:E; cbn.
        * apply dkey_eqb_ok in E. subst. firstorder.
        * rewrite IH. firstorder.
Qed.
End Round.

Lemma add_all_keys hist : forall nl, NoDup (map fst nl) ->
  NoDup (map fst (add_all nl hist)) /\ forall x, In x (map fst (add_all nl hist)) <-> In x (map fst nl) \/ In x (map snd hist).
Proof.
  induction hist as [|[t l] hist IH]; intros nl Hnd; cbn [add_all map snd]; [firstorder|].
  destruct (dset_keys nl l (getdef (dget dkey_eqb nl l) [] ++ [t])) as (_ & H2 & H3).
  destruct (IH (nl_add nl t l) (H3 Hnd)) as [H4 H5]. split; [exact H4|].
  intros x. rewrite H5. unfold nl_add. rewrite H2. cbn. firstorder.
Qed.
Lemma tag_keys_in nl k : In k (tag_keys nl) <-> In (Some k) (map fst nl).
Proof.
  unfold tag_keys. rewrite in_flat_map, in_map_iff. split.
  - intros ([[k'|] v] & Hi & Hk); cbn in Hk; [|contradiction]. destruct Hk as [->|[]]. exists (Some k, v). auto.
  - intros ([k' v] & E & Hi). cbn in E. subst k'. exists (Some k, v). split; [exact Hi|left; reflexivity].
Qed.

Section History.
Variable tag_ok : pystr -> bool.
Lemma nl_init_keys v nl : distinct_keys v -> nl_init tag_ok v = Ok nl ->
  NoDup (map fst nl) /\ (forall k, In (Some k) (map fst nl) -> tag_ok k = true).
Proof.
  intros Hd H. destruct v; cbn in H; try discriminate.
  - injection H as <-. split; [repeat constructor; intros []|]. intros k [E|[]]; discriminate.
  - destruct (forallb is_str l); injection H as <-; (split; [repeat constructor; intros []|]); [intros k [E|[]]; discriminate|intros k []].
  - apply mapM_Ok_inv in H. cbn in Hd. assert (E : map fst nl = map (fun kv => Some (fst kv)) kvs /\ forall k, In (Some k) (map fst nl) -> tag_ok k = true).
    { clear Hd. induction H as [|[k v] y kvs nl Hx H [IH1 IH2]]; [split; [reflexivity|intros k []]|]. cbn in *.
      destruct (tag_ok k) eqn:Ek; [|discriminate]. injection Hx as <-. cbn. rewrite IH1. split; [reflexivity|].
      intros k' [E|Hk']; [injection E as <-; exact Ek|apply IH2; rewrite IH1; exact Hk']. }
    destruct E as [E E2]. split; [|exact E2].
    rewrite E, <- (map_map fst Some). apply Injective_map_NoDup; [intros a b; congruence|exact Hd].
Qed.
(** constructed, then extended by add(): what comes back from asdict() *)
Lemma history_roundtrip v nl0 hist : distinct_keys v -> nl_init tag_ok v = Ok nl0 ->
  (forall k, In (Some k) (map snd hist) -> tag_ok k = true) ->
  let nl := add_all nl0 hist in
  (map fst nl = [None] \/ ~ In None (map fst nl) -> nl_init tag_ok (nl_asdict nl) = Ok nl)
  /\ (tag_ok (lit "und") = true -> In None (map fst nl) -> map fst nl <> [None] -> ~ In (Some (lit "und")) (map fst nl) ->
      nl_init tag_ok (nl_asdict nl) = Ok (und_for_none nl)).
Proof.
  intros Hd Hi Hh nl. destruct (nl_init_keys v nl0 Hd Hi) as [Hnd Hk].
  destruct (add_all_keys hist nl0 Hnd) as [Hnd' Hk'].
  assert (Ht : Forall (fun k => tag_ok k = true) (tag_keys nl)).
  { apply Forall_forall. intros k Hin. apply tag_keys_in in Hin. unfold nl in Hin. rewrite Hk' in Hin. destruct Hin; auto. }
  split.
  - intros H. apply nl_roundtrip; assumption.
  - intros H1 H2 H3 H4. apply nl_mixed; assumption.
Qed.
End History.
