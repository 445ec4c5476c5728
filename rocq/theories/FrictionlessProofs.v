(** Conversion of Frictionless descriptors (C46, C50). *)
From Verif Require Import PyStr Dsv DsvProofs4 Json JsonldProofs Frictionless FrictionlessSpec.

Lemma fget_set d k v k' : fget (fset d k v) k' = if str_eqb (lit k') (lit k) then Some v else fget d k'.
Proof. unfold fget, fset. apply (dget_dset str_eqb str_eqb_eq). Qed.
Lemma fget_copy c p q d k : fget (copy_to c p q d) k = if str_eqb (lit k) (lit q) then match fget c p with Some v => Some v | None => fget d k end else fget d k.
Proof. unfold copy_to. destruct (fget c p); [apply fget_set|]. destruct (str_eqb _ _); reflexivity. Qed.
Lemma keys_set d k v k' : In k' (map fst (fset d k v)) <-> k' = lit k \/ In k' (map fst d).
Proof.
  unfold fset. induction d as [|[a b] d IH]; [cbn; intuition congruence|]. cbn [dset map fst]. destruct (str_eqb (lit k) a) eqn:E; cbn [map fst In].
  - apply str_eqb_eq in E. subst a. intuition congruence.
  - rewrite IH. tauto.
Qed.
Lemma keys_copy c p q d k' : In k' (map fst (copy_to c p q d)) -> k' = lit q \/ In k' (map fst d).
Proof. unfold copy_to. destruct (fget c p); [rewrite keys_set; auto|auto]. Qed.
Lemma fget_none d k : ~ In (lit k) (map fst d) -> fget d k = None.
Proof. intros H. apply dget_None_keys, H. Qed.
Lemma is_lit_iff s v : is_lit s v = true <-> v = Some (JStr (lit s)).
Proof. unfold is_lit. destruct v as [[| | | |x| |]|]; try (split; discriminate). rewrite str_eqb_eq. split; congruence. Qed.
Lemma fhas_iff d k : fhas d k = true <-> exists v, fget d k = Some v.
Proof. unfold fhas. destruct (fget d k); split; intros H; eauto; try discriminate. destruct H as [v H]. discriminate H. Qed.
Lemma fgiven_iff d k : fgiven d k = true <-> exists v, fget d k = Some v /\ truthy v = true.
Proof. unfold fgiven. destruct (fget d k) as [v|]; split; intros H; eauto; try discriminate; destruct H as (w & E & T); congruence. Qed.

(** *** constraints *)
Lemma step_get c d p k : lit k <> lit "format" -> fget (constraint_step c d p) k = if str_eqb (lit k) (lit p) then match fget c p with Some v => Some v | None => fget d k end else fget d k.
Proof.
  intros N. unfold constraint_step. destruct (fhas c "pattern" && negb (fhas (copy_to c p p d) "format")); [rewrite fget_copy|]; [|apply fget_copy].
  replace (str_eqb (lit k) (lit "format")) with false by (symmetry; apply str_eqb_neq, N). apply fget_copy.
Qed.
Lemma step_format c d p : lit p <> lit "format" -> fget (constraint_step c d p) "format" = match fget d "format" with Some f => Some f | None => fget c "pattern" end.
Proof.
  intros N. unfold constraint_step. assert (E : fget (copy_to c p p d) "format" = fget d "format") by (rewrite fget_copy; replace (str_eqb (lit "format") (lit p)) with false by (symmetry; apply str_eqb_neq; congruence); reflexivity).
  unfold fhas at 2. rewrite E. destruct (fget d "format") as [f|] eqn:Ef; cbn [negb andb].
  - rewrite andb_false_r, E. reflexivity.
  - rewrite andb_true_r. unfold fhas. destruct (fget c "pattern") as [q|] eqn:Ep; [|rewrite E; reflexivity]. rewrite fget_copy, str_eqb_refl, Ep. reflexivity.
Qed.
Lemma step_keys c d p k : In k (map fst (constraint_step c d p)) -> k = lit p \/ k = lit "format" \/ In k (map fst d).
Proof.
  unfold constraint_step. destruct (fhas c "pattern" && _); intros H; [apply keys_copy in H; destruct H as [H|H]; [auto|]|]; apply keys_copy in H; tauto.
Qed.
Lemma constrain_other c d k : lit k <> lit "format" -> (forall p, In p ["required"; "minLength"; "maxLength"; "minimum"; "maximum"]%string -> lit k <> lit p) -> fget (constrain c d) k = fget d k.
Proof.
  intros N H. unfold constrain. cbn [fold_left]. rewrite !step_get by exact N.
  rewrite !(proj2 (str_eqb_neq _ _)); [reflexivity|apply H; cbn; tauto|apply H; cbn; tauto|apply H; cbn; tauto|apply H; cbn; tauto|apply H; cbn; tauto].
Qed.
Lemma constrain_given c d k : In k ["required"; "minLength"; "maxLength"; "minimum"; "maximum"]%string -> fget d k = None -> fget (constrain c d) k = fget c k.
Proof.
  intros I N. unfold constrain. cbn [fold_left].
  repeat (destruct I as [<-|I]; [rewrite !step_get by discriminate; repeat match goal with |- context [str_eqb (lit ?a) (lit ?b)] => let r := eval vm_compute in (str_eqb (lit a) (lit b)) in change (str_eqb (lit a) (lit b)) with r end; cbn [andb]; rewrite N;
    match goal with |- context [fget c ?p] => destruct (fget c p); reflexivity end|]). destruct I.
Qed.
Lemma constrain_format c d : fget (constrain c d) "format" = match fget d "format" with Some f => Some f | None => fget c "pattern" end.
Proof.
  unfold constrain. cbn [fold_left]. rewrite !step_format by discriminate. destruct (fget d "format"); [reflexivity|]. destruct (fget c "pattern"); reflexivity.
Qed.

Section Convert.
Variable str_of : json -> pystr.
Notation convert_column_spec := (convert_column_spec str_of).
(** *** datatypes *)
Definition dt_keys (d : jdict) : Prop := forall k, In k (map fst d) -> In k [lit "base"; lit "format"; lit "dc:format"].
Lemma plain_cases spec t d : plain_datatype str_of spec t = Ok d -> fget d "base" = Some t /\ dt_keys d /\
  (if is_lit "boolean" (Some t) && fgiven spec "trueValues" && fgiven spec "falseValues"
   then exists tv fv x y, fget spec "trueValues" = Some tv /\ fget spec "falseValues" = Some fv /\ first_of tv = Ok x /\ first_of fv = Ok y /\ fget d "format" = Some (JStr (text str_of x ++ lit "|" ++ text str_of y))
   else if is_one_of ["number"; "integer"]%string t && (fhas spec "decimalChar" || fhas spec "groupChar")
   then fget d "format" = Some (JObj ((if fgiven spec "decimalChar" then copy_to spec "decimalChar" "decimalChar" [] else []) ++ (if fgiven spec "groupChar" then copy_to spec "groupChar" "groupChar" [] else [])))
   else fget d "format" = None).
Proof.
  unfold plain_datatype. intros H. set (d0 := if is_lit "string" (Some t) && fgiven spec "format" then copy_to spec "format" "dc:format" [(lit "base", t)] else [(lit "base", t)]) in H.
  assert (B0 : fget d0 "base" = Some t /\ dt_keys d0 /\ fget d0 "format" = None).
  { unfold d0. destruct (is_lit "string" (Some t) && fgiven spec "format").
    - split; [rewrite fget_copy; reflexivity|]. split; [intros k Hk; apply keys_copy in Hk; destruct Hk as [->|[<-|[]]]; cbn; auto|rewrite fget_copy; reflexivity].
    - split; [reflexivity|]. split; [intros k [<-|[]]; cbn; auto|reflexivity]. }
  destruct B0 as (B1 & B2 & B3). clearbody d0.
  destruct (is_lit "boolean" (Some t) && fgiven spec "trueValues" && fgiven spec "falseValues") eqn:Eb.
  - assert (Et : t = JStr (lit "boolean")) by (apply andb_prop in Eb; destruct Eb as [Eb _]; apply andb_prop in Eb; destruct Eb as [Eb _]; apply is_lit_iff in Eb; congruence).
    unfold fitem in H. destruct (fget spec "trueValues") as [tv|]; [|discriminate H]. cbn [bind] in H. destruct (fget spec "falseValues") as [fv|]; [|discriminate H]. cbn [bind] in H.
    destruct (first_of tv) as [x|] eqn:Ex; [|discriminate H]. cbn [bind] in H. destruct (first_of fv) as [y|] eqn:Ey; [|discriminate H]. cbn [bind] in H.
    replace (is_one_of ["number"; "integer"]%string t) with false in H by (rewrite Et; reflexivity). apply Ok_inj in H. subst d. split; [rewrite fget_set; exact B1|]. split.
    + intros k Hk. apply keys_set in Hk. destruct Hk as [->|Hk]; [cbn; auto|apply B2, Hk].
    + exists tv, fv, x, y. rewrite fget_set. auto.
  - cbn [bind] in H. destruct (is_one_of ["number"; "integer"]%string t); cbn [andb].
    + destruct (match fget spec "bareNumber" with Some (JBool true) => true | _ => false end); [discriminate H|]. destruct (fhas spec "decimalChar" || fhas spec "groupChar"); apply Ok_inj in H; subst d; [|auto].
      split; [rewrite fget_set; exact B1|]. split; [|rewrite fget_set; reflexivity]. intros k Hk. apply keys_set in Hk. destruct Hk as [->|Hk]; [cbn; auto|apply B2, Hk].
    + apply Ok_inj in H. subst d. auto.
Qed.
Lemma base_keys b : dt_keys (with_base b) /\ fget (with_base b) "format" = None /\ fget (with_base b) "base" = Some (JStr (lit b)).
Proof. split; [intros k [<-|[]]; cbn; auto|split; reflexivity]. Qed.
Lemma json_keys f : dt_keys (fset (with_base "json") "dc:format" f) /\ fget (fset (with_base "json") "dc:format" f) "format" = None /\ fget (fset (with_base "json") "dc:format" f) "base" = Some (JStr (lit "json")).
Proof. split; [intros k Hk; apply keys_set in Hk; destruct Hk as [->|[<-|[]]]; cbn; auto|split; reflexivity]. Qed.
Lemma not_lit s t : is_lit s (Some t) = false -> t <> JStr (lit s).
Proof. intros E ->. unfold is_lit in E. rewrite str_eqb_refl in E. discriminate E. Qed.
Lemma is_lit_str s x : is_lit s (Some (JStr x)) = str_eqb x (lit s).
Proof. reflexivity. Qed.
Lemma expected_nonstring spec t : fget spec "type" = Some (JStr t) -> t <> lit "string" -> expected_base spec = assoc type_table t.
Proof. intros E N. unfold expected_base. rewrite E. destruct (fget spec "format") as [[| | | |f| |]|]; try reflexivity. destruct (str_eq_dec t (lit "string")); [contradiction|reflexivity]. Qed.
Lemma no_special spec : (forall t, field_type spec t -> ~ In t ["boolean"; "number"; "integer"]%string) -> forall c, constraints_of spec = Ok c -> format_for str_of spec (fget c "pattern").
Proof.
  intros H c Hc. replace (fget c "pattern") with (constraint spec "pattern").
  - apply ff_pattern; [intros [X _]; apply (H _ X); cbn; auto|intros [[X|X] _]; apply (H _ X); cbn; auto].
  - unfold constraint. unfold constraints_of in Hc. destruct (fget spec "constraints") as [[| | | | | |d]|]; try discriminate Hc; apply Ok_inj in Hc; subst; reflexivity.
Qed.
Lemma chars_iff spec k v : In (k, v) ((if fgiven spec "decimalChar" then copy_to spec "decimalChar" "decimalChar" [] else []) ++ (if fgiven spec "groupChar" then copy_to spec "groupChar" "groupChar" [] else [])) <->
  (k = lit "decimalChar" \/ k = lit "groupChar") /\ dget str_eqb spec k = Some v /\ truthy v = true.
Proof.
  assert (G : forall p, In (k, v) (if fgiven spec p then copy_to spec p p [] else []) <-> k = lit p /\ dget str_eqb spec k = Some v /\ truthy v = true).
  { intros p. unfold fgiven, copy_to. destruct (fget spec p) as [w|] eqn:E.
    - destruct (truthy w) eqn:T; cbn; split; [intros [X|[]]; injection X as <- <-; auto|intros (-> & X & _); left; unfold fget in E; congruence|intros []|intros (-> & X & Y); unfold fget in E; congruence].
    - split; [intros []|]. intros (-> & X & _). unfold fget in E. congruence. }
  rewrite in_app_iff, !G. tauto.
Qed.
Lemma datatype_ok spec d c : field_ok spec -> datatype_of str_of spec = Ok d -> constraints_of spec = Ok c ->
  fget d "base" = Some (JStr (expected_base spec)) /\ dt_keys d /\ format_for str_of spec (match fget d "format" with Some f => Some f | None => fget c "pattern" end).
Proof.
  intros F H Hc. unfold datatype_of in H. destruct (fget spec "type") as [t|] eqn:Et.
  2: { apply Ok_inj in H. subst d. destruct (base_keys "string") as (K & Ef & Eb). rewrite Ef. split; [unfold expected_base; rewrite Et; exact Eb|]. split; [exact K|]. apply (no_special spec); [|exact Hc]. intros t X. unfold field_type in X. congruence. }
  destruct (fo_type _ F t Et) as [s ->].
  assert (SP : forall b, d = with_base b -> expected_base spec = lit b -> (forall t, s = lit t -> ~ In t ["boolean"; "number"; "integer"]%string) ->
    fget d "base" = Some (JStr (expected_base spec)) /\ dt_keys d /\ format_for str_of spec (match fget d "format" with Some f => Some f | None => fget c "pattern" end)).
  { intros b -> Eb N. destruct (base_keys b) as (K & Ef & Eb'). rewrite Ef, Eb. split; [exact Eb'|]. split; [exact K|]. apply (no_special spec); [|exact Hc]. intros t X. apply N. unfold field_type in X. congruence. }
  assert (SJ : forall f, d = fset (with_base "json") "dc:format" f -> expected_base spec = lit "json" -> (forall t, s = lit t -> ~ In t ["boolean"; "number"; "integer"]%string) ->
    fget d "base" = Some (JStr (expected_base spec)) /\ dt_keys d /\ format_for str_of spec (match fget d "format" with Some f => Some f | None => fget c "pattern" end)).
  { intros f -> Eb N. destruct (json_keys f) as (K & Ef & Eb'). rewrite Ef, Eb. split; [exact Eb'|]. split; [exact K|]. apply (no_special spec); [|exact Hc]. intros t X. apply N. unfold field_type in X. congruence. }
  assert (NS : forall a, s = lit a -> is_one_of ["boolean"; "number"; "integer"]%string (JStr (lit a)) = false -> forall t, s = lit t -> ~ In t ["boolean"; "number"; "integer"]%string).
  { intros a Ea O t Eq I. rewrite Ea in Eq. rewrite Eq in O. destruct I as [<-|[<-|[<-|[]]]]; discriminate O. }
  rewrite !is_lit_str in H. cbn [hashable negb] in H. destruct (str_eqb s (lit "string") && is_lit "binary" (fget spec "format")) eqn:E1.
  { apply andb_prop in E1. destruct E1 as [E1 E2]. apply str_eqb_eq in E1. apply is_lit_iff in E2. apply Ok_inj in H. apply (SP "binary"%string); [congruence| |apply (NS "string"%string E1); reflexivity].
    unfold expected_base. rewrite Et, E2, E1. reflexivity. }
  destruct (str_eqb s (lit "string") && is_lit "uri" (fget spec "format")) eqn:E2.
  { apply andb_prop in E2. destruct E2 as [E2 E3]. apply str_eqb_eq in E2. apply is_lit_iff in E3. apply Ok_inj in H. apply (SP "anyURI"%string); [congruence| |apply (NS "string"%string E2); reflexivity].
    unfold expected_base. rewrite Et, E3, E2. reflexivity. }
  assert (NB : forall f, fget spec "format" = Some (JStr f) -> s = lit "string" -> f <> lit "binary" /\ f <> lit "uri").
  { intros f Ef Es. rewrite Ef, Es, is_lit_str in E1, E2. cbn in E1, E2. split; apply str_eqb_neq; assumption. }
  destruct (str_eqb s (lit "year")) eqn:E3.
  { apply str_eqb_eq in E3. apply Ok_inj in H. apply (SP "gYear"%string); [congruence| |apply (NS "year"%string E3); reflexivity]. rewrite (expected_nonstring spec s Et); [rewrite E3; reflexivity|rewrite E3; discriminate]. }
  destruct (str_eqb s (lit "yearmonth")) eqn:E4.
  { apply str_eqb_eq in E4. apply Ok_inj in H. apply (SP "gYearMonth"%string); [congruence| |apply (NS "yearmonth"%string E4); reflexivity]. rewrite (expected_nonstring spec s Et); [rewrite E4; reflexivity|rewrite E4; discriminate]. }
  destruct (is_one_of plain_types (JStr s)) eqn:E5.
  - destruct (plain_cases spec (JStr s) d H) as (P1 & P2 & P3). split.
    { rewrite P1. do 2 f_equal. unfold is_one_of in E5. apply existsb_exists in E5. destruct E5 as (a & Ia & Ea). rewrite is_lit_str in Ea. apply str_eqb_eq in Ea. subst s.
      destruct Ia as [<-|Ia].
      - unfold expected_base. rewrite Et. destruct (fget spec "format") as [[| | | |f| |]|] eqn:Ef; try reflexivity. destruct (NB f eq_refl eq_refl) as [N1 N2]. destruct (str_eq_dec (lit "string") (lit "string")); [|congruence].
        destruct (str_eq_dec f (lit "binary")); [contradiction|]. destruct (str_eq_dec f (lit "uri")); [contradiction|reflexivity].
      - rewrite (expected_nonstring spec _ Et); repeat (destruct Ia as [<-|Ia]; [first [reflexivity|discriminate]|]); destruct Ia. }
    split; [exact P2|].
    assert (CO : forall k, fget c k = constraint spec k).
    { intros k. unfold constraint. unfold constraints_of in Hc. destruct (fget spec "constraints") as [[| | | | | |dd]|]; try discriminate Hc; apply Ok_inj in Hc; subst; reflexivity. }
    destruct (is_lit "boolean" (Some (JStr s)) && fgiven spec "trueValues" && fgiven spec "falseValues") eqn:Eb.
    + destruct P3 as (tv & fv & x & y & T1 & T2 & T3 & T4 & Ef). rewrite Ef. apply andb_prop in Eb. destruct Eb as [Eb _]. apply andb_prop in Eb. destruct Eb as [Eb _]. apply is_lit_iff in Eb.
      destruct (fo_words _ F "trueValues"%string tv (or_introl eq_refl) T1) as [l ->]. destruct (fo_words _ F "falseValues"%string fv (or_intror eq_refl) T2) as [m ->].
      destruct l as [|x' l]; [discriminate T3|]. destruct m as [|y' m]; [discriminate T4|]. apply Ok_inj in T3, T4. subst x' y'. apply (ff_boolean _ spec x l y m); [unfold field_type; congruence|exact T1|exact T2].
    + assert (NW : ~ (field_type spec "boolean" /\ exists x l y m, fget spec "trueValues" = Some (JList (x :: l)) /\ fget spec "falseValues" = Some (JList (y :: m)))).
      { intros (X & x & l & y & m & T1 & T2). unfold field_type in X. rewrite Et in X. injection X as ->. unfold fgiven in Eb. rewrite T1, T2 in Eb. cbn in Eb. discriminate Eb. }
      destruct (is_one_of ["number"; "integer"]%string (JStr s) && (fhas spec "decimalChar" || fhas spec "groupChar")) eqn:En.
      * rewrite P3. apply andb_prop in En. destruct En as [En Eh]. apply ff_number.
        -- cbn [is_one_of existsb] in En. rewrite orb_false_r, !is_lit_str in En. apply orb_prop in En. unfold field_type. rewrite Et. destruct En as [En|En]; apply str_eqb_eq in En; subst s; [left|right]; reflexivity.
        -- apply orb_prop in Eh. rewrite !fhas_iff in Eh. exact Eh.
        -- intros k v. apply chars_iff.
      * rewrite P3, CO. apply ff_pattern; [exact NW|]. intros [X Y]. apply andb_false_iff in En. destruct En as [En|En].
        -- unfold field_type in X. rewrite Et in X. destruct X as [X|X]; injection X as ->; discriminate En.
        -- apply orb_false_iff in En. destruct En as [N1 N2]. destruct Y as [Y|Y]; apply fhas_iff in Y; congruence.
  - assert (NP : forall t, s = lit t -> ~ In t ["boolean"; "number"; "integer"]%string).
    { intros t Eq I. subst s. destruct I as [<-|[<-|[<-|[]]]]; discriminate E5. }
    destruct (is_one_of ["object"; "array"]%string (JStr s)) eqn:E6.
    { apply Ok_inj in H. apply (SJ (JStr (lit "application/json"))); [congruence| |exact NP]. unfold is_one_of in E6. cbn [existsb] in E6. rewrite orb_false_r, !is_lit_str in E6. apply orb_prop in E6.
      destruct E6 as [E6|E6]; apply str_eqb_eq in E6; subst s; rewrite (expected_nonstring spec _ Et); try reflexivity; discriminate. }
    destruct (str_eqb s (lit "geojson")) eqn:E7.
    { apply Ok_inj in H. apply (SJ (JStr (lit "application/geo+json"))); [congruence| |exact NP]. apply str_eqb_eq in E7. subst s. rewrite (expected_nonstring spec _ Et); try reflexivity; discriminate. }
    apply Ok_inj in H. apply (SP "string"%string); [congruence| |exact NP].
    assert (NE : forall a, In a (map fst type_table) -> s <> lit a).
    { intros a Ia Ea. subst s. repeat (destruct Ia as [<-|Ia]; [first [discriminate E5|discriminate E3|discriminate E4|discriminate E6|discriminate E7]|]). destruct Ia. }
    rewrite (expected_nonstring spec s Et); [|apply (NE "string"%string); cbn; auto]. clear -NE. induction type_table as [|[a b] l IH]; [reflexivity|]. cbn [assoc]. destruct (str_eq_dec s (lit a)) as [E|_]; [exfalso; apply (NE a); [left; reflexivity|exact E]|].
    apply IH. intros x Ix. apply NE. right. exact Ix.
Qed.
Lemma column_converted spec res : field_ok spec -> convert_column_spec spec = Ok res -> converted str_of spec res.
Proof.
  intros F H. unfold Frictionless.convert_column_spec in H. destruct (fitem spec "name") as [name|] eqn:En; [|discriminate H]. cbn [bind] in H.
  destruct (datatype_of str_of spec) as [d|] eqn:Ed; [|discriminate H]. cbn [bind] in H. destruct (constraints_of spec) as [c|] eqn:Ec; [|discriminate H]. cbn [bind] in H. apply Ok_inj in H.
  destruct (datatype_ok spec d c F Ed Ec) as (D1 & D2 & D3).
  assert (NM : fget spec "name" = Some name) by (unfold fitem in En; destruct (fget spec "name"); [apply Ok_inj in En; congruence|discriminate En]).
  set (r0 := [(lit "name", name); (lit "datatype", JObj (constrain c d))]) in H.
  set (r1 := match fget spec "title" with Some t => if truthy t then fset r0 "titles" (JList [t]) else r0 | None => r0 end) in H.
  set (r2 := match fget spec "description" with Some t => fset r1 "dc:description" (JList [t]) | None => r1 end) in H.
  assert (G1 : forall k, fget r1 k = if str_eqb (lit k) (lit "titles") then match fget spec "title" with Some t => if truthy t then Some (JList [t]) else fget r0 k | None => fget r0 k end else fget r0 k).
  { intros k. unfold r1. destruct (fget spec "title") as [t|]; [|destruct (str_eqb _ _); reflexivity]. destruct (truthy t); [apply fget_set|destruct (str_eqb _ _); reflexivity]. }
  assert (G2 : forall k, fget r2 k = if str_eqb (lit k) (lit "dc:description") then match fget spec "description" with Some t => Some (JList [t]) | None => fget r1 k end else fget r1 k).
  { intros k. unfold r2. destruct (fget spec "description") as [t|]; [apply fget_set|destruct (str_eqb _ _); reflexivity]. }
  assert (G3 : forall k, fget res k = if str_eqb (lit k) (lit "propertyUrl") then match fget spec "rdfType" with Some t => Some t | None => fget r2 k end else fget r2 k).
  { intros k. rewrite <- H. apply fget_copy. }
  constructor.
  - rewrite G3, G2, G1, NM. reflexivity.
  - rewrite G3, G2, G1. cbn. destruct (fget spec "title") as [t|]; [|reflexivity]. destruct (truthy t); reflexivity.
  - rewrite G3, G2, G1. cbn. destruct (fget spec "description"); reflexivity.
  - rewrite G3, G2, G1. cbn. destruct (fget spec "rdfType"); reflexivity.
  - intros k Hk. rewrite <- H in Hk. apply keys_copy in Hk. destruct Hk as [->|Hk]; [cbn; tauto|].
    assert (K1 : In k (map fst r1) -> In k [lit "name"; lit "datatype"; lit "titles"; lit "dc:description"; lit "propertyUrl"]).
    { unfold r1. assert (K0 : In k (map fst r0) -> In k [lit "name"; lit "datatype"; lit "titles"; lit "dc:description"; lit "propertyUrl"]) by (intros [<-|[<-|[]]]; cbn; tauto).
      destruct (fget spec "title") as [t|]; [|exact K0]. destruct (truthy t); [|exact K0]. intros X. apply keys_set in X. destruct X as [->|X]; [cbn; tauto|apply K0, X]. }
    unfold r2 in Hk. destruct (fget spec "description"); [|apply K1, Hk]. apply keys_set in Hk. destruct Hk as [->|Hk]; [cbn; tauto|apply K1, Hk].
  - exists (constrain c d). split; [rewrite G3, G2, G1; reflexivity|]. split; [|split].
    + rewrite constrain_other; [exact D1|discriminate|]. intros p [<-|[<-|[<-|[<-|[<-|[]]]]]]; discriminate.
    + intros p Hp. rewrite constrain_given; [|right; exact Hp|].
      * unfold constraint. unfold constraints_of in Ec. destruct (fget spec "constraints") as [[| | | | | |dd]|]; try discriminate Ec; apply Ok_inj in Ec; subst; reflexivity.
      * apply fget_none. intros X. apply D2 in X. repeat (destruct Hp as [<-|Hp]; [repeat (destruct X as [X|X]; [discriminate X|]); destruct X|]). destruct Hp.
    + rewrite constrain_format. exact D3.
Qed.
Lemma column_succeeds spec : field_ok spec -> exists res, convert_column_spec spec = Ok res.
Proof.
  intros F. unfold Frictionless.convert_column_spec. destruct (fo_name _ F) as [n En]. unfold fitem at 1. rewrite En. cbn [bind].
  assert (D : exists d, datatype_of str_of spec = Ok d).
  { unfold datatype_of. destruct (fget spec "type") as [t|] eqn:Et; [|eexists; reflexivity]. destruct (fo_type _ F t Et) as [s ->]. cbn [hashable negb].
    repeat match goal with |- context [if ?b then Ok (with_base _) else _] => destruct b; [eexists; reflexivity|] end.
    destruct (is_one_of plain_types (JStr s)); [|repeat match goal with |- context [if ?b then Ok _ else _] => destruct b; [eexists; reflexivity|] end; eexists; reflexivity].
    unfold plain_datatype.
    assert (P : forall d0, exists d1, (if is_lit "boolean" (Some (JStr s)) && fgiven spec "trueValues" && fgiven spec "falseValues"
        then tv <- fitem spec "trueValues" ;; fv <- fitem spec "falseValues" ;; x <- first_of tv ;; y <- first_of fv ;; Ok (fset d0 "format" (JStr (text str_of x ++ lit "|" ++ text str_of y))) else Ok d0) = Ok d1).
    { intros d0. destruct (is_lit "boolean" (Some (JStr s)) && fgiven spec "trueValues" && fgiven spec "falseValues") eqn:Eb; [|eexists; reflexivity].
      apply andb_prop in Eb. destruct Eb as [Eb Ef]. apply andb_prop in Eb. destruct Eb as [_ Eb]. apply fgiven_iff in Eb, Ef. destruct Eb as (tv & T1 & T2), Ef as (fv & V1 & V2).
      destruct (fo_words _ F "trueValues"%string tv (or_introl eq_refl) T1) as [l ->]. destruct (fo_words _ F "falseValues"%string fv (or_intror eq_refl) V1) as [m ->].
      unfold fitem. rewrite T1, V1. destruct l as [|x l]; [discriminate T2|]. destruct m as [|y m]; [discriminate V2|]. eexists. reflexivity. }
    cbn zeta. match goal with |- context [bind (if _ then _ else Ok ?d0) _] => destruct (P d0) as [d1 Hd1]; rewrite Hd1 end. cbn [bind].
    destruct (is_one_of ["number"; "integer"]%string (JStr s)) eqn:En'; [|eexists; reflexivity].
    assert (NB : match fget spec "bareNumber" with Some (JBool true) => true | _ => false end = false).
    { assert (X : fget spec "bareNumber" <> Some (JBool true)).
      { apply (fo_bare _ F). unfold is_one_of in En'. cbn [existsb] in En'. rewrite orb_false_r, !is_lit_str in En'. apply orb_prop in En'. unfold field_type. rewrite Et. destruct En' as [E|E]; apply str_eqb_eq in E; subst s; [left|right]; reflexivity. }
      destruct (fget spec "bareNumber") as [[|[|]| | | | |]|]; try reflexivity. congruence. }
    rewrite NB. destruct (fhas spec "decimalChar" || fhas spec "groupChar"); eexists; reflexivity. }
  destruct D as [d Hd]. rewrite Hd. cbn [bind]. assert (C : exists c, constraints_of spec = Ok c).
  { unfold constraints_of. destruct (fget spec "constraints") as [v|] eqn:Ev; [|eexists; reflexivity]. destruct (fo_constraints _ F v Ev) as [c ->]. eexists. reflexivity. }
  destruct C as [c Hc]. rewrite Hc. eexists. reflexivity.
Qed.
End Convert.
