(** Proofs for C51: tables and groups. *)
From Verif Require Import PyStr PyCsv Dsv DsvSpec DsvProofs DsvProofs4 Json Dec NatLang Column Schema Table Jsonld JsonldSpec JsonldProofs TripleProofs DbProofs DbReadProofs3 FrictionlessProofs2 Csv2json Csv2jsonSpec Csv2jsonProofs Props_Frictionless.

(** an object without '@value' that is not just a reference *)
Lemma to_json_obj fl kvs r : (forall k v, In (k, v) kvs -> char_mem 58 k = true) -> to_json fl (JObj kvs) = Ok r ->
  exists items, r = JObj (dset_all str_eqb [] items) /\ Forall2 (fun kv i => fst i = rename (fst kv) /\ to_json fl (snd kv) = Ok (snd i)) kvs items.
Proof.
  intros K H. unfold to_json in H. cbn [conv t_full] in H.
  assert (E1 : dget str_eqb (map (fun kv : pystr * json => (fst kv, conv fl (snd kv))) kvs) (lit "@value") = None).
  { apply dget_None_keys. rewrite map_map. intros X. apply in_map_iff in X. destruct X as ([k v] & E & I). cbn [fst] in E. subst k. specialize (K _ _ I). discriminate K. }
  rewrite E1 in H.
  assert (E2 : forall rest, match map (fun kv : pystr * json => (fst kv, conv fl (snd kv))) kvs with [(k, sub)] => if str_eqb k (lit "@id") then t_rest sub else rest | _ => rest end = rest).
  { intros rest. destruct kvs as [|[k v] [|]]; [reflexivity| |reflexivity]. cbn [map fst snd]. destruct (str_eqb k (lit "@id")) eqn:E; [|reflexivity]. apply str_eqb_eq in E. subst k. specialize (K _ _ (or_introl eq_refl)). discriminate K. }
  cbn zeta in H. rewrite E2 in H. apply bind_inv in H. destruct H as (items & H1 & H). apply Ok_inj in H. subst r. exists items. split; [reflexivity|]. rewrite mapM_map in H1. apply mapM_Forall2 in H1.
  eapply Forall2_weaken; [|exact H1]. intros [k v] [k' v'] _ E. cbn [fst snd] in *. apply bind_inv in E. destruct E as (x & E & E'). apply Ok_inj in E'. injection E' as <- <-. split; [reflexivity|exact E].
Qed.
Lemma In_dset_all {A} (items : list (pystr * A)) : forall d k v, NoDup (map fst items) -> In (k, v) items -> dget str_eqb (dset_all str_eqb d items) k = Some v.
Proof.
  intros d k v N I. rewrite (dget_dset_all str_eqb str_eqb_eq). rewrite (dget_In (rev items) k v); [reflexivity| |apply in_rev in I; exact I]. rewrite map_rev. apply NoDup_rev, N.
Qed.
Section Tables.
Context {V : Type} (sc : scalars V) (F : json_fns V).
Lemma truthy_iff (v : pyval V) : truthy_val sc v = true <-> not_false sc v.
Proof. destruct v as [|x|[|x l]]; cbn [truthy_val not_false]; split; intros H; try discriminate; try contradiction; try exact H; try reflexivity; try (contradiction H; reflexivity). Qed.
Lemma titles_ok names (row : dict V) : titles_given sc names row (titles_of sc names row).
Proof.
  destruct names as [|n0 names]; [reflexivity|]. exists (filter (truthy_val sc) (map (fun n => getdef (dget str_eqb row n) PNone) (n0 :: names))). split; [|unfold titles_of; destruct (filter _ _) as [|v [|w l]]; reflexivity].
  generalize (n0 :: names). intros l. induction l as [|n l IH]; [constructor|]. cbn [map filter]. destruct (dget str_eqb row n) as [v|] eqn:E; cbn [getdef].
  - destruct (truthy_val sc v) eqn:T; [apply tv_take; [assumption|apply truthy_iff; exact T|assumption]|]. apply tv_skip; [|exact IH]. intros v' E' K. apply truthy_iff in K. congruence.
  - cbn [truthy_val]. apply tv_skip; [|exact IH]. intros v' E'. congruence.
Qed.
Lemma title_values_det (row : dict V) names vs : title_values sc row names vs -> forall vs', title_values sc row names vs' -> vs' = vs.
Proof.
  induction 1 as [|n ns v vs E T H IH|n ns vs E H IH]; intros vs' H'; inversion H' as [|n' ns' v' vs2 E' T' H2|n' ns' vs2 E' H2]; subst; [reflexivity| | | |].
  - rewrite E in E'. injection E' as ->. f_equal. apply IH, H2.
  - contradiction (E' _ E T).
  - contradiction (E _ E' T').
  - apply IH, H2.
Qed.
Lemma titles_iff names (row : dict V) ti : titles_given sc names row ti <-> ti = titles_of sc names row.
Proof.
  split; [|intros ->; apply titles_ok]. intros H. pose proof (titles_ok names row) as T. unfold titles_given in *. destruct names; [congruence|]. destruct H as (vs & H1 & ->), T as (vs' & T1 & ->). rewrite (title_values_det _ _ _ T1 _ H1). reflexivity.
Qed.
Lemma row_ok nometa (t : jtable V) n line row r : distinct_headers t -> row_to_json sc F nometa t row n line = Ok r -> row_converted sc F nometa t n line row r.
Proof.
  intros N H. unfold row_to_json in H. apply bind_inv in H. destruct H as (ds & H1 & H). apply Ok_inj in H. subst r. unfold describes in H1. apply bind_inv in H1. destruct H1 as (ts & H1 & H2). constructor; cbn [jr_url jr_num jr_describes jr_titles]; try reflexivity.
  - exists ts. split; [apply triples_ok; assumption|exact H2].
  - apply titles_ok.
Qed.
Lemma rename_dec k : rename k = lit "@type" /\ k = lit "rdf:type" \/ rename k = k /\ k <> lit "rdf:type".
Proof. unfold rename. destruct (str_eqb k (lit "rdf:type")) eqn:E; [left; apply str_eqb_eq in E; auto|right; apply str_eqb_neq in E; auto]. Qed.
Lemma items_keys fl (kvs : list (pystr * json)) (items : list (pystr * json)) : Forall2 (fun kv i => fst i = rename (fst kv) /\ to_json fl (snd kv) = Ok (snd i)) kvs items -> map fst items = map (fun kv => rename (fst kv)) kvs.
Proof. induction 1 as [|kv i kvs items [E _] H IH]; [reflexivity|]. cbn [map]. rewrite E, IH. reflexivity. Qed.
Lemma rename_nodup (kvs : list (pystr * json)) : NoDup (map fst kvs) -> (forall k, In k (map fst kvs) -> char_mem 58 k = true) -> NoDup (map (fun kv => rename (fst kv)) kvs).
Proof.
  induction kvs as [|[k v] kvs IH]; intros N C; [constructor|]. cbn [map fst] in *. apply NoDup_cons_iff in N. destruct N as [N1 N2]. constructor; [|apply IH; [exact N2|intros k' I; apply C; right; exact I]].
  intros X. apply in_map_iff in X. destruct X as ([k' v'] & E & I). apply (in_map fst) in I. cbn [fst] in *. destruct (rename_dec k) as [[R1 R2]|[R1 R2]], (rename_dec k') as [[S1 S2]|[S1 S2]].
  - apply N1. congruence.
  - assert (k' = lit "@type") by congruence. subst k'. specialize (C _ (or_intror I)). discriminate C.
  - assert (k = lit "@type") by congruence. subst k. specialize (C _ (or_introl eq_refl)). discriminate C.
  - apply N1. congruence.
Qed.
(** r.update(to_json(props)) sets exactly the converted properties *)
Lemma update_ok fl (r r' : list (pystr * jout V)) kvs : NoDup (map fst kvs) -> (forall k, In k (map fst kvs) -> char_mem 58 k = true) -> update_props fl r kvs = Ok r' ->
  (forall k, k <> lit "@type" -> ~ In k (map fst kvs) -> dget str_eqb r' k = dget str_eqb r k) /\
  (forall k v, In (k, v) kvs -> exists j, to_json fl v = Ok j /\ dget str_eqb r' (rename k) = Some (OJson j)) /\
  (forall k, In k (map fst r') -> In k (map fst r) \/ k = lit "@type" \/ In k (map fst kvs)).
Proof.
  intros N C H. unfold update_props in H. apply bind_inv in H. destruct H as (j & H1 & H).
  apply to_json_obj in H1; [|intros k v I; apply C; apply (in_map fst) in I; exact I]. destruct H1 as (items & -> & H1). apply Ok_inj in H. subst r'.
  pose proof (items_keys _ _ _ H1) as K. pose proof (rename_nodup kvs N C) as NR. rewrite <- K in NR. assert (DA : dset_all str_eqb [] items = items) by (rewrite (dset_all_new str_eqb str_eqb_eq); [reflexivity|exact NR]). rewrite DA.
  set (its := map (fun kv : pystr * json => (fst kv, OJson (snd kv))) items : list (pystr * jout V)). assert (Ki : map fst its = map (fun kv => rename (fst kv)) kvs) by (rewrite <- K; unfold its; rewrite map_map; apply map_ext; reflexivity).
  assert (Ni : NoDup (map fst its)) by (rewrite Ki, <- K; exact NR).
  assert (Kin : forall k, In k (map fst its) -> k = lit "@type" \/ In k (map fst kvs)).
  { intros k X. rewrite Ki in X. apply in_map_iff in X. destruct X as ([k' v'] & E & I). apply (in_map fst) in I. cbn [fst] in *. destruct (rename_dec k') as [[R1 R2]|[R1 R2]]; [left; congruence|right; rewrite <- E, R1; exact I]. }
  split; [|split].
  - intros k T I. rewrite (dget_dset_all str_eqb str_eqb_eq). assert (X : dget str_eqb (rev its) k = None).
    { apply dget_None_keys. rewrite map_rev. intros X. apply in_rev in X. destruct (Kin k X); contradiction. }
    rewrite X. reflexivity.
  - intros k v I. destruct (In_nth_error _ _ I) as (n & En). pose proof H1 as H2. assert (X : exists i, In i items /\ fst i = rename k /\ to_json fl v = Ok (snd i)).
    { clear -H2 I. induction H2 as [|kv i kvs items [E1 E2] H IH]; [destruct I|]. destruct I as [->|I]; [exists i; split; [left; reflexivity|split; assumption]|]. destruct (IH I) as (i' & I' & E). exists i'. split; [right; exact I'|exact E]. }
    destruct X as ([ki vi] & Ii & E1 & E2). cbn [fst snd] in *. exists vi. split; [exact E2|]. apply In_dset_all; [exact Ni|]. unfold its. apply in_map_iff. exists (ki, vi). split; [rewrite <- E1; reflexivity|exact Ii].
  - intros k I. assert (X : In k (map fst r) \/ In k (map fst its)).
    { clear -I. revert r I. induction its as [|[k0 v0] its IH]; intros r I; [left; exact I|]. cbn [dset_all fold_left] in I. apply (IH (dset str_eqb r k0 v0)) in I. destruct I as [I|I]; [|right; right; exact I]. rewrite keys_dset in I. destruct (str_mem k0 (map fst r)); [left; exact I|]. apply in_app_iff in I. destruct I as [I|[I|[]]]; [left; exact I|right; left; exact I]. }
    destruct X as [X|X]; [left; exact X|right; apply Kin, X].
Qed.
End Tables.
Section Table.
Context {V : Type} (sc : scalars V) (F : json_fns V).
Lemma keys_of_dset {A} (g : list (pystr * A)) q v k : In k (map fst (dset str_eqb g q v)) -> k = q \/ In k (map fst g).
Proof. rewrite keys_dset. destruct (str_mem q (map fst g)); [auto|]. intros I. apply in_app_iff in I. destruct I as [I|[I|[]]]; auto. Qed.
Definition proper_common (t : jtable V) : Prop := NoDup (map fst (jt_common t)) /\ forall k, In k (map fst (jt_common t)) -> char_mem 58 k = true.
Lemma object_ok nometa (t : jtable V) rows0 cs0 out : distinct_headers t -> proper_common t -> table_json sc F nometa t rows0 cs0 = Ok out ->
  exists cs, cs0 = Ok cs /\ table_object sc F nometa t rows0 cs out.
Proof.
  intros D [NC CC] H. unfold table_json in H.
  set (r1 := match jt_id t with Some i => _ | None => _ end) in H. apply bind_inv in H. destruct H as (r2 & H2 & H). apply bind_inv in H. destruct H as (r3 & H3 & H). apply bind_inv in H. destruct H as (rows & H4 & H).
  destruct (io_end _) eqn:E; [discriminate H|]. apply bind_inv in H. destruct H as (cs & H5 & H). apply Ok_inj in H.
  set (r4 := match cs with [] => r3 | _ => _ end) in H. subst out.
  destruct (update_ok _ _ _ _ NC CC H3) as (U1 & U2 & U3).
  assert (NK : forall k, char_mem 58 k = false -> ~ In k (map fst (jt_common t))) by (intros k Ek I; rewrite (CC k I) in Ek; discriminate Ek).
  assert (G5 : forall k, k <> lit "row" -> dget str_eqb (dset str_eqb r4 (lit "row") (ORows rows)) k = dget str_eqb r4 k).
  { intros k N. rewrite (dget_dset str_eqb str_eqb_eq). apply str_eqb_neq in N. rewrite N. reflexivity. }
  assert (G4 : forall k, k <> lit "rdfs:comment" -> dget str_eqb r4 k = dget str_eqb r3 k).
  { intros k N. unfold r4. destruct cs; [reflexivity|]. rewrite (dget_dset str_eqb str_eqb_eq). apply str_eqb_neq in N. rewrite N. reflexivity. }
  assert (G3 : forall k, k <> lit "@type" -> char_mem 58 k = false -> dget str_eqb r3 k = dget str_eqb r2 k) by (intros k N Ek; apply U1; [exact N|apply NK, Ek]).
  assert (G2 : forall k, k <> lit "notes" -> dget str_eqb r2 k = dget str_eqb r1 k).
  { intros k N. destruct (truthy (jt_notes t)); [|apply Ok_inj in H2; rewrite H2; reflexivity]. apply bind_inv in H2. destruct H2 as (n & _ & H2). apply Ok_inj in H2. subst r2. rewrite (dget_dset str_eqb str_eqb_eq). apply str_eqb_neq in N. rewrite N. reflexivity. }
  exists cs. split; [exact H5|]. constructor.
  - rewrite G5, G4, G3, G2 by (reflexivity || discriminate). unfold r1. destruct (jt_id t); reflexivity.
  - split; [exact E|]. exists rows. split; [rewrite (dget_dset str_eqb str_eqb_eq), str_eqb_refl; reflexivity|].
    apply mapM_Forall2 in H4. eapply Forall2_weaken; [|exact H4]. intros [n [line row]] r _ R. cbn [fst snd] in *. apply row_ok; assumption.
  - assert (Gn : dget str_eqb (dset str_eqb r4 (lit "row") (ORows rows)) (lit "notes") = dget str_eqb r2 (lit "notes")) by (rewrite G5, G4, G3 by (reflexivity || discriminate); reflexivity).
    destruct (truthy (jt_notes t)).
    + apply bind_inv in H2. destruct H2 as (n & H2 & H6). apply Ok_inj in H6. exists n. split; [exact H2|]. rewrite Gn. subst r2. rewrite (dget_dset str_eqb str_eqb_eq), str_eqb_refl. reflexivity.
    + rewrite Gn. apply Ok_inj in H2. rewrite <- H2. unfold r1. destruct (jt_id t); reflexivity.
  - intros k v I Nk. destruct (U2 k v I) as (j & J1 & J2). exists j. split; [exact J1|]. change (if str_eqb k (lit "rdf:type") then lit "@type" else k) with (rename k).
    assert (Ik := I). apply (in_map fst) in Ik. apply CC in Ik. cbn [fst] in Ik. rewrite G5, G4; [exact J2| |].
    + destruct (rename_dec k) as [[R _]|[R _]]; rewrite R; [discriminate|exact Nk].
    + destruct (rename_dec k) as [[R _]|[R _]]; rewrite R; [discriminate|]. intros ->. discriminate Ik.
  - intros Nc. rewrite G5 by discriminate. unfold r4. destruct cs; [contradiction|]. rewrite (dget_dset str_eqb str_eqb_eq), str_eqb_refl. reflexivity.
  - intros k I. apply keys_of_dset in I. destruct I as [->|I]; [left; cbn [map In]; tauto|]. assert (X : k = lit "rdfs:comment" \/ In k (map fst r3)).
    { unfold r4 in I. destruct cs; [right; exact I|]. apply keys_of_dset in I. exact I. }
    destruct X as [->|X]; [left; cbn [map In]; tauto|]. apply U3 in X. destruct X as [X|[->|X]]; [|left; cbn [map In]; tauto|right; exact X]. left.
    assert (Y : k = lit "notes" \/ In k (map fst r1)).
    { destruct (truthy (jt_notes t)); [|apply Ok_inj in H2; rewrite H2; right; exact X]. apply bind_inv in H2. destruct H2 as (n & _ & H2). apply Ok_inj in H2. subst r2. apply keys_of_dset in X. exact X. }
    destruct Y as [->|Y]; [cbn [map In]; tauto|]. unfold r1 in Y. destruct (jt_id t); [apply keys_of_dset in Y; destruct Y as [->|Y]; [cbn [map In]; tauto|]|]; destruct Y as [<-|[]]; cbn [map In fst]; tauto.
  - rewrite G5, G4, G3, G2 by (reflexivity || discriminate). unfold r1. destruct (jt_id t); reflexivity.
Qed.
Lemma number_rows_in d raw : exists kept recorded, Selected (fun lr => ~ row_is_dropped d lr) (number_rows 0 raw) kept /\ Selected (row_is_recorded d) (number_rows 0 raw) recorded.
Proof.
  assert (Sel : forall (P : nat * list pystr -> Prop), (forall x, P x \/ ~ P x) -> forall l, exists l', Selected P l l').
  { intros P Dec l. induction l as [|x l (l' & IH)]; [exists []; constructor|]. destruct (Dec x); [exists (x :: l')|exists l']; constructor; assumption. }
  destruct (Sel (fun lr => ~ row_is_dropped d lr)) with (l := number_rows 0 raw) as (kept & K).
  { intros x. pose proof (dropb_spec d x) as X. destruct (dropb d x); [right; intros N; apply N, X; reflexivity|left; intros Y; apply X in Y; discriminate Y]. }
  destruct (Sel (row_is_recorded d)) with (l := number_rows 0 raw) as (recorded & R).
  { intros x. pose proof (recb_spec d x) as X. destruct (recb d x); [left; apply X; reflexivity|right; intros Y; apply X in Y; discriminate Y]. }
  eauto.
Qed.
Lemma comments_ok d raw : comments_given d raw (comments_in d raw).
Proof.
  destruct (number_rows_in d raw) as (kept & recorded & K & R). exists kept, recorded. split; [exact K|]. split; [exact R|].
  destruct (reader_yields d raw kept recorded K R) as [Y1 Y2]. unfold comments_in. rewrite Y1.
  assert (X : Forall2 (fun lr c => recorded_text d (snd lr) c) recorded (map snd (comments (snd (reader_iter (Some d) raw))))).
  { clear -Y2. induction Y2 as [|lr c l cs [_ H] Y IH]; cbn [map]; constructor; assumption. }
  destruct kept; cbn [map]; destruct (d_header d); cbn [andb]; try exact X; reflexivity.
Qed.
Lemma table_ok lim nometa (t : jtable V) out : distinct_headers t -> proper_common t -> table_to_json sc F lim nometa t = Ok out -> table_converted sc F lim nometa t out.
Proof.
  intros D C H. destruct (object_ok nometa t _ _ out D C H) as (cs & E & O). exists cs. split; [|exact O]. unfold comments_of in E. apply bind_inv in E. destruct E as ([raw e] & E & E'). apply Ok_inj in E'. subst cs.
  exists raw, e. split; [exact E|]. apply comments_ok.
Qed.
End Table.
