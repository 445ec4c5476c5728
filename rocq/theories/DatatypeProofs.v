(** C23. *)
From Verif Require Import PyStr Datatype DatatypeSpec.
From Coq Require Import ZifyBool.

Section P.
Context {V : Type} (ops : vops V).
Lemma check_spec f ok v o : (forall c, f c = false <-> ok c) -> (forall b, o = Some b -> exists r, v_cmp ops v b = Ok r) ->
  (check (opr ops f) v o = Ok tt /\ forall b, o = Some b -> related ops ok v b)
  \/ (check (opr ops f) v o = Err ValueError /\ exists b, o = Some b /\ ~ related ops ok v b).
Proof.
  intros Hf Hc. unfold check. destruct o as [b|]; [|left; split; [reflexivity|discriminate]].
  destruct (Hc b eq_refl) as [r E]. unfold opr. rewrite E. cbn [bind]. destruct r as [c|].
  - destruct (f c) eqn:Ef.
    + right. split; [reflexivity|]. exists b. split; [reflexivity|]. unfold related. rewrite E. rewrite <- Hf. congruence.
    + left. split; [reflexivity|]. intros b' H. injection H as <-. unfold related. rewrite E. apply Hf, Ef.
  - left. split; [reflexivity|]. intros b' H. injection H as <-. unfold related. rewrite E. exact I.
Qed.
Lemma check_len_spec (F : facets V) v :
  let P := forall n, size_of ops v = Some n ->
     (forall k, fc_length F = Some k -> Z.of_nat n = k) /\ (forall k, fc_minLength F = Some k -> (k <= Z.of_nat n)%Z)
     /\ (forall k, fc_maxLength F = Some k -> (Z.of_nat n <= k)%Z) in
  (check_len ops F v = Ok tt /\ P) \/ (check_len ops F v = Err ValueError /\ ~ P).
Proof.
  cbv zeta. unfold check_len, size_of. destruct (if v_truthy ops v then _ else _) as [n|]; [|left; split; [reflexivity|discriminate]].
  destruct (fc_length F) as [l|], (fc_minLength F) as [m|], (fc_maxLength F) as [x|]; cbn;
  repeat match goal with |- context [if ?b then _ else _] => destruct b eqn:? end;
  solve [ left; split; [reflexivity|]; intros n' E; injection E as <-; repeat split; intros k Hk; try discriminate Hk; injection Hk; intros; subst; lia
        | right; split; [reflexivity|]; intros H; destruct (H n eq_refl) as (H1 & H2 & H3);
          try (specialize (H1 _ eq_refl)); try (specialize (H2 _ eq_refl)); try (specialize (H3 _ eq_refl)); lia ].
Qed.
Theorem validate_spec c (F : facets V) v : (minmax c = true -> comparable ops F v) ->
  (validate ops c F v = Ok v /\ satisfies ops F v (minmax c))
  \/ (validate ops c F v = Err ValueError /\ ~ satisfies ops F v (minmax c)).
Proof.
  intros Hc. unfold validate, satisfies. destruct (check_len_spec F v) as [[-> Hl]|[-> Hl]]; cbn [bind]; [|right; tauto].
  destruct (minmax c); [|left; split; [reflexivity|]; split; [exact Hl|discriminate]].
  specialize (Hc eq_refl). unfold comparable, bound_of in Hc.
  assert (HC : forall o b, In o [fc_minimum F; fc_maximum F; fc_minInclusive F; fc_maxInclusive F; fc_minExclusive F; fc_maxExclusive F] -> o = Some b -> exists r, v_cmp ops v b = Ok r) by (intros o b Hi ->; apply Hc, Hi).
  unfold py_lt, py_le, py_gt, py_ge.
  assert (S1 := check_spec (fun c => match c with Lt => true | _ => false end) (fun c => c <> Lt) v (fc_minimum F) ltac:(intros []; intuition congruence) (fun b => HC (fc_minimum F) b ltac:(cbn; tauto))).
  destruct S1 as [[-> A1]|[-> (b & Eb & A1)]]; cbn [bind]; [|right; split; [reflexivity|]; intros (_ & H); destruct (H eq_refl) as (H1 & _); apply A1, H1; auto].
  assert (S2 := check_spec (fun c => match c with Lt => true | _ => false end) (fun c => c <> Lt) v (fc_minInclusive F) ltac:(intros []; intuition congruence) (fun b => HC (fc_minInclusive F) b ltac:(cbn; tauto))).
  destruct S2 as [[-> A2]|[-> (b & Eb & A2)]]; cbn [bind]; [|right; split; [reflexivity|]; intros (_ & H); destruct (H eq_refl) as (H1 & _); apply A2, H1; auto].
  assert (S3 := check_spec (fun c => match c with Gt => false | _ => true end) (fun c => c = Gt) v (fc_minExclusive F) ltac:(intros []; intuition congruence) (fun b => HC (fc_minExclusive F) b ltac:(cbn; tauto))).
  destruct S3 as [[-> A3]|[-> (b & Eb & A3)]]; cbn [bind]; [|right; split; [reflexivity|]; intros (_ & H); destruct (H eq_refl) as (_ & _ & H1 & _); apply A3, H1; auto].
  assert (S4 := check_spec (fun c => match c with Gt => true | _ => false end) (fun c => c <> Gt) v (fc_maximum F) ltac:(intros []; intuition congruence) (fun b => HC (fc_maximum F) b ltac:(cbn; tauto))).
  destruct S4 as [[-> A4]|[-> (b & Eb & A4)]]; cbn [bind]; [|right; split; [reflexivity|]; intros (_ & H); destruct (H eq_refl) as (_ & H1 & _); apply A4, H1; auto].
  assert (S5 := check_spec (fun c => match c with Gt => true | _ => false end) (fun c => c <> Gt) v (fc_maxInclusive F) ltac:(intros []; intuition congruence) (fun b => HC (fc_maxInclusive F) b ltac:(cbn; tauto))).
  destruct S5 as [[-> A5]|[-> (b & Eb & A5)]]; cbn [bind]; [|right; split; [reflexivity|]; intros (_ & H); destruct (H eq_refl) as (_ & H1 & _); apply A5, H1; auto].
  assert (S6 := check_spec (fun c => match c with Lt => false | _ => true end) (fun c => c = Lt) v (fc_maxExclusive F) ltac:(intros []; intuition congruence) (fun b => HC (fc_maxExclusive F) b ltac:(cbn; tauto))).
  destruct S6 as [[-> A6]|[-> (b & Eb & A6)]]; cbn [bind]; [|right; split; [reflexivity|]; intros (_ & H); destruct (H eq_refl) as (_ & _ & _ & H1); apply A6, H1; auto].
  left. split; [reflexivity|]. split; [exact Hl|]. intros _. repeat split; intros b Hb; try (destruct Hb as [Hb|Hb]); auto.
Qed.

(** ** the constructor *)
Lemma if_err {A} (b : bool) (e : exn) (k : res A) r : (if b then Err e else k) = Ok r -> b = false /\ k = Ok r.
Proof. destruct b; [discriminate|auto]. Qed.
Lemma bind_ok {A B} (m : res A) (f : A -> res B) r : bind m f = Ok r -> exists a, m = Ok a /\ f a = Ok r.
Proof. destruct m; cbn; [eauto|discriminate]. Qed.
Lemma given_some o b : given ops o = Some b <-> stated ops o b.
Proof. unfold given, stated. destruct o as [x|]; [|intuition discriminate]. destruct (v_truthy ops x) eqn:E; [intuition congruence|]. split; [discriminate|]. intros [H T]. injection H as ->. congruence. Qed.
Lemma both_false a b op x y : both_ ops a b op = Ok false -> stated ops a x -> stated ops b y -> op x y = Ok false.
Proof. unfold both_. intros H Hx Hy. apply given_some in Hx. apply given_some in Hy. rewrite Hx, Hy in H. exact H. Qed.
Lemma or_false a b : or_ a b = Ok false -> a = Ok false /\ b = Ok false.
Proof. unfold or_. destruct a as [[]|]; cbn; try discriminate. auto. Qed.
Lemma opr_false f x y : opr ops f x y = Ok false -> exists r, v_cmp ops x y = Ok r /\ match r with Some c => f c = false | None => True end.
Proof. unfold opr. intros H. apply bind_ok in H. destruct H as (r & E & H). exists r. split; [exact E|]. destruct r; [congruence|exact I]. Qed.

Lemma is_some_given o : is_some (given ops o) = true <-> exists b, stated ops o b.
Proof. split; [destruct (given ops o) as [b|] eqn:E; [intros _; exists b; apply given_some, E|discriminate]|]. intros [b H]. apply given_some in H. rewrite H. reflexivity. Qed.
Theorem post_init_spec {R} (parse : R -> res V) c derived idb raw F keep :
  post_init ops parse c derived idb raw = Ok (F, keep) ->
  consistent ops c F /\ fc_length F = fc_length raw /\ fc_minLength F = fc_minLength raw /\ fc_maxLength F = fc_maxLength raw
  /\ (forall f, In f [(@fc_minimum R, @fc_minimum V); (fc_maximum, fc_maximum); (fc_minInclusive, fc_minInclusive);
                      (fc_maxInclusive, fc_maxInclusive); (fc_minExclusive, fc_minExclusive); (fc_maxExclusive, fc_maxExclusive)] ->
      match fst f raw with Some r => exists v, parse r = Ok v /\ snd f F = Some v | None => snd f F = None end)
  /\ idb = false.
Proof.
  unfold post_init. intros H.
  apply bind_ok in H. destruct H as (mn & E1 & H). apply bind_ok in H. destruct H as (mx & E2 & H).
  apply bind_ok in H. destruct H as (mni & E3 & H). apply bind_ok in H. destruct H as (mxi & E4 & H).
  apply bind_ok in H. destruct H as (mne & E5 & H). apply bind_ok in H. destruct H as (mxe & E6 & H).
  cbv zeta in H. apply if_err in H. destruct H as [HL H]. apply bind_ok in H. destruct H as (pat & _ & H).
  apply if_err in H. destruct H as [HO H]. apply if_err in H. destruct H as [HN H]. apply if_err in H. destruct H as [HB H].
  apply bind_ok in H. destruct H as (b1 & G1 & H). apply if_err in H. destruct H as [-> H].
  apply bind_ok in H. destruct H as (b2 & G2 & H). apply if_err in H. destruct H as [-> H].
  apply if_err in H. destruct H as [HI H]. injection H as <- <-.
  apply or_false in G1. destruct G1 as [G1 G1']. apply or_false in G2. destruct G2 as [G2 G2'].
  assert (PE : forall (o : option R) v, (match o with Some r => v <- parse r ;; Ok (Some v) | None => Ok None end) = Ok v ->
     match o with Some r => exists w, parse r = Ok w /\ v = Some w | None => v = None end).
  { intros [r|] v E; [|congruence]. apply bind_ok in E. destruct E as (w & Ew & E). exists w. split; [exact Ew|congruence]. }
  apply PE in E1, E2, E3, E4, E5, E6.
  split; [|cbn [fc_length fc_minLength fc_maxLength]; repeat split; auto].
  2:{ intros f Hf. cbn in Hf. repeat (destruct Hf as [<-|Hf]; [cbn; assumption|]). destruct Hf. }
  apply orb_false_iff in HB. destruct HB as [HB1 HB2].
  constructor; cbn [fc_length fc_minLength fc_maxLength fc_minimum fc_maximum fc_minInclusive fc_maxInclusive fc_minExclusive fc_maxExclusive].
  - apply negb_false_iff in HL. unfold lengths_ok in HL. cbn in HL. repeat split; intros a b Ha Hb; rewrite Ha, Hb in HL; lia.
  - intros Hc o b Hi Hs. rewrite Hc in HO. cbn [negb andb] in HO.
    assert (X : existsb (fun o => is_some (given ops o)) [mn; mx; mne; mxe; mni; mxi] = true).
    { apply existsb_exists. exists o. split; [cbn in *; tauto|]. apply is_some_given. eauto. }
    congruence.
  - intros Hc z Hi. rewrite Hc in HN. cbn [negb andb] in HN.
    assert (given_z (Some z) = false).
    { destruct (given_z (Some z)) eqn:E; [|reflexivity]. assert (X : existsb given_z [fc_length raw; fc_minLength raw; fc_maxLength raw] = true) by (apply existsb_exists; eauto). congruence. }
    cbn in H. lia.
  - intros a b Ha Hb. assert (is_some (given ops mni) = true) by (apply is_some_given; eauto). assert (is_some (given ops mne) = true) by (apply is_some_given; eauto). rewrite H, H0 in HB1. discriminate.
  - intros a b Ha Hb. assert (is_some (given ops mxi) = true) by (apply is_some_given; eauto). assert (is_some (given ops mxe) = true) by (apply is_some_given; eauto). rewrite H, H0 in HB2. discriminate.
  - intros lo hi Hl Hh. pose proof (both_false _ _ _ _ _ G1' Hh Hl) as X. apply opr_false in X. destruct X as (r & E & X). unfold related. rewrite E. destruct r as [[]|]; congruence || exact I.
  - intros lo hi Hl Hh. pose proof (both_false _ _ _ _ _ G1 Hh Hl) as X. apply opr_false in X. destruct X as (r & E & X). unfold related. rewrite E. destruct r as [[]|]; congruence || exact I.
  - intros lo hi Hl Hh. pose proof (both_false _ _ _ _ _ G2' Hh Hl) as X. apply opr_false in X. destruct X as (r & E & X). unfold related. rewrite E. destruct r as [[]|]; congruence || exact I.
  - intros lo hi Hl Hh. pose proof (both_false _ _ _ _ _ G2 Hh Hl) as X. apply opr_false in X. destruct X as (r & E & X). unfold related. rewrite E. destruct r as [[]|]; congruence || exact I.
Qed.
(** accepted length constraints can be met *)
Corollary lengths_meetable c (F : facets V) : consistent ops c F -> (forall z, In (Some z) [fc_length F; fc_minLength F; fc_maxLength F] -> (0 <= z)%Z) ->
  exists n : nat, (forall k, fc_length F = Some k -> Z.of_nat n = k) /\ (forall k, fc_minLength F = Some k -> (k <= Z.of_nat n)%Z)
     /\ (forall k, fc_maxLength F = Some k -> (Z.of_nat n <= k)%Z).
Proof.
  intros [H _ _ _ _ _ _ _ _] Hp. destruct H as (H1 & H2 & H3).
  exists (Z.to_nat (match fc_length F with Some l => l | None => match fc_minLength F with Some m => m | None => 0 end end)).
  assert (P1 : forall z, fc_length F = Some z -> (0 <= z)%Z) by (intros z E; apply Hp; cbn; auto).
  assert (P2 : forall z, fc_minLength F = Some z -> (0 <= z)%Z) by (intros z E; apply Hp; cbn; auto).
  assert (P3 : forall z, fc_maxLength F = Some z -> (0 <= z)%Z) by (intros z E; apply Hp; cbn; auto).
  destruct (fc_length F) as [l|], (fc_minLength F) as [m|], (fc_maxLength F) as [x|];
    repeat split; intros k Hk; try discriminate Hk; injection Hk as <-;
    try (specialize (H1 _ _ eq_refl eq_refl)); try (specialize (H2 _ _ eq_refl eq_refl)); try (specialize (H3 _ _ eq_refl eq_refl));
    try (specialize (P1 _ eq_refl)); try (specialize (P2 _ eq_refl)); try (specialize (P3 _ eq_refl)); lia.
Qed.
(** well-formed constraints are accepted: completeness *)
Theorem post_init_complete c pat (F : facets V) : consistent ops c F -> total_on ops F ->
  exists keep, post_init ops (fun v => Ok v) c (Ok pat) false F = Ok (F, keep).
Proof.
  intros C T. unfold post_init.
  assert (E : forall o : option V, (match o with Some r => v <- Ok r ;; Ok (Some v) | None => Ok None end) = Ok o) by (intros []; reflexivity).
  rewrite !E. cbn [bind]. clear E. destruct F as [l ml xl mn mx mni mxi mne mxe]. destruct C as [cs_len0 cs_unordered0 cs_nolen0 cs_lower0 cs_upper0 cs_ii0 cs_ie0 cs_ei0 cs_ee0]; cbn [fc_length fc_minLength fc_maxLength fc_minimum fc_maximum fc_minInclusive fc_maxInclusive fc_minExclusive fc_maxExclusive] in *.
  assert (HL : lengths_ok {| fc_length := l; fc_minLength := ml; fc_maxLength := xl; fc_minimum := mn; fc_maximum := mx; fc_minInclusive := mni; fc_maxInclusive := mxi; fc_minExclusive := mne; fc_maxExclusive := mxe |} = true).
  { destruct cs_len0 as (H1 & H2 & H3). unfold lengths_ok. cbn. destruct l, ml, xl; cbn; try reflexivity;
    try (specialize (H1 _ _ eq_refl eq_refl)); try (specialize (H2 _ _ eq_refl eq_refl)); try (specialize (H3 _ _ eq_refl eq_refl)); lia. }
  rewrite HL. cbn [negb bind].
  assert (HO : (negb (has_order c) && existsb (fun o => is_some (given ops o)) [mn; mx; mne; mxe; mni; mxi]) = false).
  { destruct (has_order c) eqn:E; [reflexivity|]. cbn [negb andb]. destruct (existsb _ _) eqn:X; [|reflexivity]. apply existsb_exists in X. destruct X as (o & Hi & Ho).
    apply is_some_given in Ho. destruct Ho as [b Ho]. exfalso. eapply (cs_unordered0 eq_refl o b); [cbn in *; tauto|exact Ho]. }
  rewrite HO.
  assert (HN : (negb (has_length c) && existsb given_z [l; ml; xl]) = false).
  { destruct (has_length c) eqn:E; [reflexivity|]. cbn [negb andb]. destruct (existsb given_z [l; ml; xl]) eqn:X; [|reflexivity]. apply existsb_exists in X. destruct X as ([z|] & Hi & Ho); [|discriminate].
    specialize (cs_nolen0 eq_refl z Hi). subst z. discriminate. }
  rewrite HN.
  assert (HB : (is_some (given ops mni) && is_some (given ops mne) || is_some (given ops mxi) && is_some (given ops mxe)) = false).
  { apply orb_false_iff. split; apply not_true_is_false; intros X; apply andb_prop in X; destruct X as [X1 X2]; apply is_some_given in X1; apply is_some_given in X2; destruct X1 as [a Ha], X2 as [b Hb]; [eapply cs_lower0|eapply cs_upper0]; eauto. }
  rewrite HB.
  assert (BF : forall f (ok : comparison -> Prop) a b, In a [mn; mx; mni; mxi; mne; mxe] -> In b [mn; mx; mni; mxi; mne; mxe] -> (forall c, ok c -> f c = false) ->
     (forall x z, stated ops a x -> stated ops b z -> related ops ok x z) -> both_ ops a b (opr ops f) = Ok false).
  { intros f ok a b Ha Hb Hf H. unfold both_. destruct (given ops a) as [x|] eqn:Ex; [|reflexivity]. destruct (given ops b) as [z|] eqn:Ez; [|reflexivity].
    apply given_some in Ex. apply given_some in Ez. specialize (H x z Ex Ez). destruct Ex as [-> _], Ez as [-> _].
    destruct (T x z Ha Hb) as [r Er]. unfold opr, related in *. rewrite Er in *. cbn [bind]. destruct r as [k|]; [|reflexivity]. rewrite (Hf k H). reflexivity. }
  unfold or_, py_le, py_lt.
  rewrite (BF _ (fun c => c = Gt)) by (try (cbn; tauto); try (intros ? ->; reflexivity); eauto). cbn [bind].
  rewrite (BF _ (fun c => c <> Lt)) by (try (cbn; tauto); try (intros [] ?; congruence); eauto). cbn [bind].
  rewrite (BF _ (fun c => c = Gt)) by (try (cbn; tauto); try (intros ? ->; reflexivity); eauto). cbn [bind].
  rewrite (BF _ (fun c => c = Gt)) by (try (cbn; tauto); try (intros ? ->; reflexivity); eauto). cbn [bind]. eauto.
Qed.
End P.
Lemma classes_documented name c : In (name, c) DATATYPES ->
  (minmax c = true <-> In name bounded_types) /\ (has_length c = true <-> In name length_types) /\
  (has_order c = true <-> In name bounded_types \/ In name duration_types).
Proof.
  assert (A : forallb (fun nc => Bool.eqb (minmax (snd nc)) (str_mem (fst nc) bounded_types) && Bool.eqb (has_length (snd nc)) (str_mem (fst nc) length_types)
              && Bool.eqb (has_order (snd nc)) (str_mem (fst nc) bounded_types || str_mem (fst nc) duration_types)) DATATYPES = true) by (vm_compute; reflexivity).
  intros H. rewrite forallb_forall in A. specialize (A _ H). cbn [fst snd] in A. apply andb_prop in A. destruct A as [A A3]. apply andb_prop in A. destruct A as [A1 A2].
  apply Bool.eqb_prop in A1, A2, A3. rewrite A1, A2, A3, orb_true_iff, !str_mem_In. tauto.
Qed.
