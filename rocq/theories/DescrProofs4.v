(** Dialects, tables and table groups survive serialisation. *)
From Coq Require Import Sorted Permutation Lia.
From Verif Require Import PyStr Dsv DsvProofs4 Json Dialects DialectProofs NatLang NatLangProofs ColumnSpec Datatype Column Meta MetaSpec MetaProofs MetaProofs2 MetaProofs3
  Descr DescrSpec DescrProofs DescrProofs2 DescrProofs3.

Section Fields.
Context {B : Type} (env : world B).
Hypothesis utf8_known : w_codec env (lit "utf-8") = CKnown.
Notation tag_ok := (w_tag_ok env).
Notation field := (field B). Notation class := (class B). Notation mobj := (mobj B). Notation mval := (mval B).
Notation field_ok := (field_ok env).
Notation spec := (meta_dialect_spec env).

(** ** Dialect *)
Lemma spec_nodup : NoDup (map a_name spec).
Proof. apply nodupb_ok. reflexivity. Qed.
Lemma spec_ok a : In a spec -> aspec_ok a.
Proof.
  intros H. unfold meta_dialect_spec in H. apply in_app_iff in H. destruct H as [H|[<-|[]]].
  - apply filter_In in H. eapply dialect_spec_ok; [exact utf8_known|apply H].
  - split; [|split]; cbn [mk a_conv a_valid a_default].
    + intros v w H _. assert (Hw : converter TStr JNull true no_cond v = w) by congruence. rewrite <- Hw. f_equal. apply converter_null_idem. discriminate.
    + reflexivity.
    + intros v w _ _ H. apply py_eq_null, H.
Qed.

Lemma init_get kw o a : attrs_init spec kw = Ok o -> In a spec ->
  exists v, dget str_eqb o (a_name a) = Some v /\ init_attr kw a = Ok v /\ a_valid a v = Ok tt.
Proof.
  intros H Ha. destruct (attrs_init_inv _ _ _ H) as (vals & -> & L & _ & All).
  destruct (In_nth _ _ a Ha) as (n & Hn & E).
  assert (Hc : In (a, nth n vals JNull) (combine spec vals)).
  { replace (a, nth n vals JNull) with (nth n (combine spec vals) (a, JNull)).
    - apply nth_In. rewrite combine_length, L, Nat.min_id. exact Hn.
    - rewrite combine_nth by (symmetry; exact L). rewrite E. reflexivity. }
  exists (nth n vals JNull). split; [apply (dget_combine spec spec_nodup a _ vals L Hc)|apply All, Hc].
Qed.
Lemma init_names kw o : attrs_init spec kw = Ok o -> map fst o = map a_name spec.
Proof.
  intros H. destruct (attrs_init_inv _ _ _ H) as (vals & -> & L & _ & _). apply map_fst_combine. rewrite map_length. lia.
Qed.
Lemma init_ext kw kw' o : attrs_init spec kw = Ok o -> (forall kv, In kv kw' -> In (fst kv) (map a_name spec)) ->
  (forall a, In a spec -> init_attr kw' a = init_attr kw a) -> attrs_init spec kw' = Ok o.
Proof.
  unfold attrs_init. intros H K E.
  destruct (forallb (fun kv => str_mem (fst kv) (map a_name spec)) kw); [|discriminate H]. cbn [negb] in H.
  assert (K' : forallb (fun kv => str_mem (fst kv) (map a_name spec)) kw' = true).
  { apply forallb_forall. intros kv Hk. apply str_mem_In, K, Hk. }
  rewrite K'. cbn [negb].
  assert (M : mapM (init_attr kw') spec = mapM (init_attr kw) spec).
  { clear - E. induction spec as [|a l IH]; [reflexivity|]. cbn [mapM]. rewrite (E a (or_introl eq_refl)).
    rewrite IH; [reflexivity|]. intros b Hb. apply E. right; exact Hb. }
  rewrite M. exact H.
Qed.

Lemma plain_keys_partition F T kvs : NoDup (map fst kvs) -> Forall (fun kv => plain_name (fst kv)) kvs ->
  exists ws, partition_properties tag_ok F T false (JObj kvs) = Ok (Some {| p_common := []; p_at := []; p_attrs := kvs |}, ws).
Proof.
  intros N P.
  assert (Fa : forall kv, In kv kvs -> fate_of F false (fst kv) = FAttr).
  { intros kv H. rewrite Forall_forall in P. destruct (P kv H) as (P1 & P2 & _). rewrite (fate_not_at F false _ P1), P2. reflexivity. }
  assert (WF : forall f, with_fate F false f kvs = if fate_eq_dec f FAttr then kvs else []).
  { intros f. unfold with_fate. clear - Fa. induction kvs as [|kv kvs IH]; [destruct (fate_eq_dec f FAttr); reflexivity|].
    cbn [filter]. rewrite (Fa kv (or_introl eq_refl)), IH by (intros x Hx; apply Fa; right; exact Hx).
    destruct (fate_eq_dec FAttr f), (fate_eq_dec f FAttr); congruence. }
  assert (Wc : forall k v, In (k, v) kvs -> fate_of F false k = FCommon -> wf_json v).
  { intros k v H E. specialize (Fa _ H). cbn [fst] in Fa. congruence. }
  assert (A : accepted F T false kvs).
  { rewrite Forall_forall in P. split.
    - intros r H. destruct (P _ H) as (D & _). discriminate D.
    - intros v H. destruct (P _ H) as (D & _). discriminate D.
    - intros k v H E. specialize (Fa _ H). cbn [fst] in Fa. congruence.
    - intros k v H _. destruct (P _ H) as (_ & _ & D1 & D2). auto. }
  destruct (partition_complete' tag_ok F T false kvs N Wc A) as [[po ws] E]. exists ws. rewrite E.
  destruct (partition_sound' tag_ok F T false kvs po ws N Wc E) as (_ & -> & _).
  unfold expected_common, expected_at, expected_attrs. rewrite !WF. reflexivity.
Qed.

Definition hrc : aspec := mk (lit "headerRowCount") (JInt 1) (converter TInt (JInt 1) false nonneg) valid_nonneg.
Definition hdr : aspec := mk (lit "header") (JBool true) (converter TBool (JBool true) false no_cond) (valid_type TBool).
Lemma hrc_in : In hrc spec. Proof. cbn. auto 20. Qed.
Lemma hdr_in : In hdr spec. Proof. cbn. auto 20. Qed.

Lemma asdict_get kw a (x : aspec) v : attrs_init spec kw = Ok a -> In x spec -> dget str_eqb a (a_name x) = Some v ->
  dget str_eqb (attrs_asdict spec true a) (a_name x) = if py_eq v (a_default x) then None else Some v.
Proof.
  intros H Hx G. unfold attrs_asdict. rewrite dget_filter by (rewrite (init_names _ _ H); exact spec_nodup).
  rewrite G. cbn [fst snd andb]. rewrite (find_name spec spec_nodup x Hx). destruct (py_eq v (a_default x)); reflexivity.
Qed.

Theorem dialect_rt j a : new_dialect env j = Ok a -> new_dialect env (JObj (attrs_asdict spec true a)) = Ok a.
Proof.
  intros H. unfold new_dialect in H. destruct (dialect_props env j) as [kw|] eqn:Ek; [|discriminate H]. cbn [bind] in H.
  pose proof (attrs_asdict_init spec spec_nodup spec_ok kw a true H) as H'.
  set (kw' := attrs_asdict spec true a) in *.
  assert (Hk : forall kv, In kv kw' -> In (fst kv) (map a_name spec)).
  { intros kv Hin. rewrite <- (init_names _ _ H). apply in_map. eapply proj1, filter_In, Hin. }
  assert (Nd : NoDup (map fst kw')).
  { apply NoDup_filter_fst. rewrite (init_names _ _ H). exact spec_nodup. }
  assert (Pl : Forall (fun kv => plain_name (fst kv)) kw').
  { apply Forall_forall. intros kv Hin. apply Hk in Hin. apply plain_nameb_ok.
    assert (X : forallb plain_nameb (map a_name spec) = true) by reflexivity. rewrite forallb_forall in X. apply X, Hin. }
  unfold new_dialect, dialect_props. destruct (plain_keys_partition (Description_names env) (lit "Dialect") kw' Nd Pl) as [ws ->].
  cbn [bind fst p_attrs]. destruct (truthy (getdef (dget str_eqb kw' (lit "headerRowCount")) JNull)) eqn:T; [|exact H'].
  (* the header is written *)
  destruct (init_get _ _ _ H hrc_in) as (n & Gn & In_ & Vn). destruct (init_get _ _ _ H hdr_in) as (h & Gh & Ih & Vh).
  assert (Hh : h = JBool true).
  { unfold dialect_props in Ek. destruct j as [| | | | | |kvs];
      try (injection Ek as <-; cbn in Ih; injection Ih as <-; reflexivity).
    destruct (partition_properties tag_ok _ _ false (JObj kvs)) as [[[p|] ws0]|]; try discriminate Ek. cbn [bind fst] in Ek.
    destruct (truthy (getdef (dget str_eqb (p_attrs p) (lit "headerRowCount")) JNull)) eqn:T0; injection Ek as <-.
    - unfold init_attr in Ih. cbn [hdr a_name mk a_conv a_default] in Ih.
      rewrite (dget_dset _ str_eqb_eq) in Ih. rewrite str_eqb_refl in Ih. cbn in Ih. injection Ih as <-. reflexivity.
    - exfalso. unfold kw' in T. pose proof (asdict_get _ _ hrc n H hrc_in Gn) as G. cbn [hrc mk a_name a_default] in G. rewrite G in T.
      unfold init_attr in In_. cbn [hrc a_name mk a_conv a_default] in In_.
      destruct (dget str_eqb (p_attrs p) (lit "headerRowCount")) as [v|]; cbn [getdef] in In_, T0; injection In_ as <-.
      + destruct v as [|[]|z|r|s|[|]|[|]]; cbn [truthy] in T0; try discriminate T0; try (cbn in T; discriminate T); try discriminate Vn.
        destruct z; [discriminate T|discriminate T0|discriminate T0].
      + discriminate T. }
  subst h. apply (init_ext kw'); [exact H'| |].
  - intros kv Hin. assert (X : In (fst kv) (map fst (dset str_eqb kw' (lit "header") (JBool true)))) by (apply in_map, Hin).
    destruct (str_eq_dec (fst kv) (lit "header")) as [->|D]; [exact (in_map a_name _ _ hdr_in)|].
    destruct (dget str_eqb (dset str_eqb kw' (lit "header") (JBool true)) (fst kv)) as [v|] eqn:G.
    + rewrite (dget_dset _ str_eqb_eq) in G. destruct (str_eqb (fst kv) (lit "header")) eqn:Q; [apply str_eqb_eq in Q; congruence|].
      apply dget_Some_In in G. apply (Hk _ G).
    + apply dget_None_In in G. contradiction.
  - intros x Hx. destruct (init_get _ _ _ H' Hx) as (v & Gv & Iv & _). rewrite Iv. unfold init_attr.
    rewrite (dget_dset _ str_eqb_eq). destruct (str_eqb (a_name x) (lit "header")) eqn:Q; [|exact Iv].
    apply str_eqb_eq in Q. cbn [getdef].
    assert (Ex : x = hdr).
    { pose proof (find_name spec spec_nodup x Hx) as F1. pose proof (find_name spec spec_nodup hdr hdr_in) as F2.
      change (a_name hdr) with (lit "header") in F2. rewrite Q in F1. congruence. }
    subst x. change (a_name hdr) with (lit "header") in Gv, Gh. rewrite Gh in Gv. injection Gv as <-. reflexivity.
Qed.

(** ** __attrs_post_init__ of tables and groups *)
Lemma dget_dset_s {A} (d : list (pystr * A)) k v k' :
  dget str_eqb (dset str_eqb d k v) k' = if str_eqb k' k then Some v else dget str_eqb d k'.
Proof. clear. apply dget_dset. exact str_eqb_eq. Qed.
Lemma dset_keys {A} (d : list (pystr * A)) k v w : dget str_eqb d k = Some w -> map fst (dset str_eqb d k v) = map fst d.
Proof.
  clear. induction d as [|[k' x] d IH]; [discriminate|]. cbn [dget dset]. destruct (str_eqb k k') eqn:E.
  - intros _. apply str_eqb_eq in E. subst k'. reflexivity.
  - intros H. cbn [map fst]. rewrite IH by exact H. reflexivity.
Qed.
Lemma dset_same {A} (d : list (pystr * A)) k v : dget str_eqb d k = Some v -> dset str_eqb d k v = d.
Proof.
  clear. induction d as [|[k' x] d IH]; [discriminate|]. cbn [dget dset]. destruct (str_eqb k k') eqn:E.
  - apply str_eqb_eq in E. subst k'. intros H. injection H as ->. reflexivity.
  - intros H. rewrite IH by exact H. reflexivity.
Qed.
Lemma dset_In {A} (d : list (pystr * A)) k v k' x : In (k', x) (dset str_eqb d k v) -> k' = k /\ x = v \/ In (k', x) d.
Proof.
  clear. induction d as [|[k0 y] d IH]; cbn [dset].
  - intros [E|[]]. injection E as <- <-. auto.
  - destruct (str_eqb k k0) eqn:Q.
    + intros [E|H]; [injection E as <- <-; apply str_eqb_eq in Q; subst; auto|right; right; exact H].
    + intros [E|H]; [right; left; exact E|]. destruct (IH H) as [X|X]; [auto|right; right; exact X].
Qed.
Lemma sorted_fst (a b : list (pystr * json)) : map fst a = map fst b -> Sorted key_le a -> Sorted key_le b.
Proof.
  clear. revert b. induction a as [|x a IH]; intros [|y b] E S; try discriminate E; [constructor|].
  cbn [map] in E. injection E as E1 E2. inversion S as [|? ? S1 S2]; subst. constructor; [apply IH; assumption|].
  destruct b as [|z b]; constructor. destruct a as [|w a]; [discriminate E2|]. injection E2 as E3 _. inversion S2; subst.
  unfold key_le in *. congruence.
Qed.
Lemma filter_twice {A} (p : A -> bool) l : filter p (filter p l) = filter p l.
Proof. clear. induction l as [|x l IH]; [reflexivity|]. cbn [filter]. destruct (p x) eqn:E; [cbn [filter]; rewrite E, IH; reflexivity|exact IH]. Qed.
Lemma dget_removed (kvs : list (pystr * json)) k k' : k <> k' ->
  dget str_eqb (filter (fun kv => negb (str_eqb (fst kv) k)) kvs) k' = dget str_eqb kvs k'.
Proof.
  clear. intros D. induction kvs as [|[k0 v] kvs IH]; [reflexivity|]. cbn [filter fst dget]. destruct (str_eqb k0 k) eqn:E; cbn [negb].
  - apply str_eqb_eq in E. subst k0. rewrite IH. destruct (str_eqb k' k) eqn:Q; [apply str_eqb_eq in Q; congruence|reflexivity].
  - cbn [dget]. rewrite IH. reflexivity.
Qed.
Lemma dget_removed_same (kvs : list (pystr * json)) k : dget str_eqb (filter (fun kv => negb (str_eqb (fst kv) k)) kvs) k = None.
Proof.
  clear. induction kvs as [|[k0 v] kvs IH]; [reflexivity|]. cbn [filter fst]. destruct (str_eqb k0 k) eqn:E; cbn [negb]; [exact IH|].
  cbn [dget]. destruct (str_eqb k k0) eqn:Q; [apply str_eqb_eq in Q; subst; rewrite str_eqb_refl in E; discriminate|exact IH].
Qed.
Lemma check_context_again j j' : check_context env j = Ok j' -> check_context env j' = Ok j' /\ forall acc, ctx_base acc j' = ctx_base acc j.
Proof.
  intros H. destruct j as [| | | |s| |kvs]; unfold check_context in H; try (injection H as <-; split; reflexivity).
  - destruct (str_eqb s _) eqn:E; [|discriminate H]. injection H as <-. unfold check_context. rewrite E. split; reflexivity.
  - destruct (forallb _ kvs) eqn:F; cbn [negb] in H; [|discriminate H].
    destruct (dget str_eqb kvs (lit "@language")) as [[| | | |s| |]|] eqn:G; try discriminate H.
    + destruct (tag_ok s) eqn:T; apply Ok_inj in H; subst j'.
      * unfold check_context. rewrite F. cbn [negb]. rewrite G, T. split; reflexivity.
      * split.
        -- unfold check_context.
           assert (F' : forallb (fun kv : pystr * json => str_mem (fst kv) [lit "@base"; lit "@language"])
                          (filter (fun kv => negb (str_eqb (fst kv) (lit "@language"))) kvs) = true).
           { apply forallb_forall. intros x Hx. apply filter_In in Hx. rewrite forallb_forall in F. apply F, Hx. }
           rewrite F'. cbn [negb]. rewrite dget_removed_same. reflexivity.
        -- intros acc. cbn [ctx_base]. rewrite dget_removed by discriminate. reflexivity.
    + injection H as <-. unfold check_context. rewrite F. cbn [negb]. rewrite G. split; reflexivity.
Qed.
Lemma check_contexts_again l l' : mapM (check_context env) l = Ok l' ->
  mapM (check_context env) l' = Ok l' /\ forall acc, fold_left ctx_base l' acc = fold_left ctx_base l acc.
Proof.
  intros H. apply mapM_Ok_inv in H. induction H as [|x y l l' Hx H (IH1 & IH2)]; [split; reflexivity|].
  destruct (check_context_again _ _ Hx) as [C1 C2]. cbn [mapM fold_left]. rewrite C1. cbn [bind]. rewrite IH1. split; [reflexivity|].
  intros acc. rewrite C2. apply IH2.
Qed.

(** the at_props of a table after __attrs_post_init__ *)
Definition at_post (at_ : list (pystr * json)) : res (list (pystr * json)) :=
  at1 <- match dget_at at_ (lit "id") with
         | Some JNull => b <- base_of env at_ ;; Ok (dset str_eqb at_ (lit "id") b)
         | _ => Ok at_
         end ;;
  match dget_at at1 (lit "context") with
  | Some (JList l) => l' <- mapM (check_context env) l ;; Ok (dset str_eqb at1 (lit "context") (JList l'))
  | _ => Ok at1
  end.
Lemma tablelike_post_eq num common at_ dv dl rest : length dv = 11%nat ->
  tablelike_post env (MO num common at_ (dv ++ dl :: rest)) =
  dl' <- match dl with
         | MJ (JStr s) => j <- w_fetch_dialect env s at_ ;; a <- new_dialect env j ;; Ok (MDialect a)
         | _ => Ok dl
         end ;; at2 <- at_post at_ ;; Ok (MO num common at2 (dv ++ dl' :: rest)).
Proof.
  intros L. unfold tablelike_post, at_post. cbn [o_vals o_at o_num o_common].
  assert (Sk : skipn 11 (dv ++ dl :: rest) = dl :: rest) by (rewrite <- L, skipn_app, skipn_all, Nat.sub_diag; reflexivity).
  assert (Fn : firstn 11 (dv ++ dl :: rest) = dv) by (rewrite <- L, firstn_app, firstn_all, Nat.sub_diag; cbn; apply app_nil_r).
  rewrite Sk, Fn. destruct (match dl with MJ (JStr s) => _ | _ => _ end) as [dl'|]; [|reflexivity]. cbn [bind].
  destruct (match dget_at at_ (lit "id") with Some JNull => _ | _ => _ end) as [at1|]; [|reflexivity]. cbn [bind].
  destruct (dget_at at1 (lit "context")) as [[| | | | |l|]|]; reflexivity.
Qed.

Lemma at_post_again at_ at2 : at_post at_ = Ok at2 -> at_post at2 = Ok at2 /\ map fst at2 = map fst at_ /\
  forall k v, In (k, v) at2 -> k = lit "id" \/ k = lit "context" \/ In (k, v) at_.
Proof.
  unfold at_post, dget_at. intros H.
  destruct (match dget str_eqb at_ (lit "id") with Some JNull => _ | _ => _ end) as [at1|] eqn:E1; [|discriminate H]. cbn [bind] in H.
  (* id *)
  assert (A1 : map fst at1 = map fst at_ /\ (forall k v, In (k, v) at1 -> k = lit "id" \/ In (k, v) at_) /\
    (forall k, k <> lit "id" -> dget str_eqb at1 k = dget str_eqb at_ k) /\
    (dget str_eqb at1 (lit "id") = Some JNull -> base_of env at_ = Ok JNull)).
  { destruct (dget str_eqb at_ (lit "id")) as [i|] eqn:G.
    - destruct i; try (injection E1 as <-; repeat split; auto; rewrite G; discriminate).
      destruct (base_of env at_) as [b|]; [|discriminate E1]. cbn [bind] in E1. apply Ok_inj in E1. subst at1. split; [eapply dset_keys, G|].
      split; [|split].
      + intros k v Hin. apply dset_In in Hin. destruct Hin as [[-> _]|Hin]; auto.
      + intros k D. rewrite dget_dset_s. destruct (str_eqb k (lit "id")) eqn:Q; [apply str_eqb_eq in Q; contradiction|reflexivity].
      + rewrite dget_dset_s, str_eqb_refl. intros Hb. injection Hb as ->. reflexivity.
    - injection E1 as <-. repeat split; auto. rewrite G. discriminate. }
  destruct A1 as (K1 & I1 & D1 & B1). clear E1.
  assert (A2 : exists l', (dget str_eqb at2 (lit "context") = Some (JList l') \/ ~ exists l, dget str_eqb at2 (lit "context") = Some (JList l)) /\
     (dget str_eqb at2 (lit "context") = Some (JList l') -> mapM (check_context env) l' = Ok l') /\
     (forall k, k <> lit "context" -> dget str_eqb at2 k = dget str_eqb at1 k) /\ map fst at2 = map fst at1 /\
     (forall k v, In (k, v) at2 -> k = lit "context" \/ In (k, v) at1) /\
     match dget str_eqb at1 (lit "context"), dget str_eqb at2 (lit "context") with
     | Some (JList l), Some (JList m) => forall acc, fold_left ctx_base m acc = fold_left ctx_base l acc
     | x, y => x = y
     end).
  { destruct (dget str_eqb at1 (lit "context")) as [i|] eqn:G.
    - destruct i as [| | | | |l|];
        try (injection H as <-; exists []; rewrite G; split; [right; intros [? D]; discriminate D|]; repeat split; auto; discriminate).
      destruct (mapM (check_context env) l) as [l'|] eqn:M; [|discriminate H]. cbn [bind] in H. apply Ok_inj in H. subst at2.
      destruct (check_contexts_again _ _ M) as [M1 M2]. exists l'. rewrite dget_dset_s, str_eqb_refl. split; [left; reflexivity|].
      split; [intros _; exact M1|]. split; [|split; [eapply dset_keys, G|split; [|exact M2]]].
      + intros k D. rewrite dget_dset_s. destruct (str_eqb k (lit "context")) eqn:Q; [apply str_eqb_eq in Q; contradiction|reflexivity].
      + intros k v Hin. apply dset_In in Hin. destruct Hin as [[-> _]|Hin]; auto.
    - injection H as <-. exists []. rewrite G. split; [right; intros [? D]; discriminate D|]. repeat split; auto; discriminate. }
  destruct A2 as (l' & C1 & C2 & D2 & K2 & I2 & X2). clear H.
  split; [|split; [congruence|]].
  - assert (E1 : match dget str_eqb at2 (lit "id") with
                 | Some JNull => b <- base_of env at2 ;; Ok (dset str_eqb at2 (lit "id") b)
                 | _ => Ok at2 end = Ok at2).
    { destruct (dget str_eqb at2 (lit "id")) as [[| | | | | |]|] eqn:G; try reflexivity.
      rewrite (D2 (lit "id")) in G by discriminate.
      assert (Bq : base_of env at2 = base_of env at_).
      { unfold base_of, dget_at. rewrite (D2 (lit "base")), (D1 (lit "base")) by discriminate.
        rewrite (D1 (lit "context")) in X2 by discriminate.
        destruct (dget str_eqb at_ (lit "context")) as [[| | | | |l|]|]; destruct (dget str_eqb at2 (lit "context")) as [[| | | | |m|]|];
          try discriminate X2; try reflexivity. rewrite X2. reflexivity. }
      rewrite Bq, (B1 G). cbn [bind]. rewrite dset_same; [reflexivity|]. rewrite (D2 (lit "id")) by discriminate. exact G. }
    rewrite E1. cbn [bind]. destruct (dget str_eqb at2 (lit "context")) as [[| | | | |m|]|] eqn:G; try reflexivity.
    assert (m = l') as ->. { destruct C1 as [C1|C1]; [congruence|elim C1; eauto]. }
    rewrite (C2 eq_refl). cbn [bind]. rewrite dset_same by exact G. reflexivity.
  - intros k v Hin. apply I2 in Hin. destruct Hin as [->|Hin]; [auto|]. apply I1 in Hin. destruct Hin as [->|Hin]; auto.
Qed.

Lemma stored_post (C : class) common at_ at2 : stored_ok env C common at_ -> at_post at_ = Ok at2 ->
  (forall j, In (lit "id", j) at2 -> j = JNull \/ exists s, j = JStr s /\ startswith (lit "_") s = false) ->
  stored_ok env C common at2.
Proof.
  intros S P I. destruct (at_post_again _ _ P) as (_ & K & In2). constructor; try apply S; try assumption.
  - eapply sorted_fst; [symmetry; exact K|apply S].
  - rewrite K. apply S.
  - intros v Hin. apply In2 in Hin. destruct Hin as [D|[D|Hin]]; [discriminate D|discriminate D|]. apply (st_type _ _ _ _ S _ Hin).
Qed.
End Fields.
