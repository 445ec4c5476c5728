(** C44 (simplification of JSON-LD), C45 (grouping of triples). *)
From Verif Require Import PyStr Dsv DsvProofs4 Json Jsonld JsonldSpec JsonldProofs TripleProofs.

(** ** C44 *)
(** Simplification succeeds if every '@value' is a string, a list or an object, *)
Theorem c44_succeeds fl j : usable j -> exists r, to_json fl j = Ok r.
Proof. intros U. apply (total_all fl j U). Qed.
(** and fails with TypeError for an object with a null, Boolean or numeric '@value'. *)
Theorem c44_fails fl kvs v : dget str_eqb kvs (lit "@value") = Some v -> match v with JNull | JBool _ | JInt _ | JFloat _ => True | _ => False end ->
  to_json fl (JObj kvs) = Err TypeError.
Proof. intros E H. apply (unusable_fails fl kvs v E). destruct v; try (destruct H; fail); auto. Qed.
(** What comes out: wrapped values and bare references are replaced, 'rdf:type' is renamed, everything else is kept, in order *)
Theorem c44_simplifies fl j : plain_ld j -> keys_ok j -> exists r, to_json fl j = Ok r /\ simplifies fl j r.
Proof.
  intros P K. destruct (c44_succeeds fl j (plain_usable j P)) as [r Hr]. exists r. split; [exact Hr|]. apply full_simplifies; assumption.
Qed.
(** and nothing is left to simplify. *)
Theorem c44_simple fl j r : plain_ld j -> keys_ok j -> to_json fl j = Ok r -> simple fl r.
Proof. intros P K H. apply (simplifies_fine fl j r K (full_simplifies fl j r P K H)). Qed.
Theorem c44_idempotent fl j r : plain_ld j -> keys_ok j -> to_json fl j = Ok r -> to_json fl r = Ok r.
Proof. intros P K H. apply (fine_fixed fl r). apply (simplifies_fine fl j r K (full_simplifies fl j r P K H)). Qed.
Definition ex_ld : json :=
  JObj [(lit "@id", JStr (lit "s")); (lit "rdf:type", JList [JObj [(lit "@id", JStr (lit "t"))]]);
        (lit "p", JList [JObj [(lit "@value", JStr (lit "1")); (lit "@type", JStr (lit "xsd:integer"))]; JObj [(lit "@id", JStr (lit "o"))]; JList []])].
Lemma within_ex kvs : within (JObj kvs) ex_ld ->
  JObj kvs = ex_ld \/ kvs = [(lit "@id", JStr (lit "t"))] \/ kvs = [(lit "@value", JStr (lit "1")); (lit "@type", JStr (lit "xsd:integer"))] \/ kvs = [(lit "@id", JStr (lit "o"))].
Proof.
  intros W. apply within_obj_inv in W. destruct W as [W|(kv & [<-|[<-|[<-|[]]]] & W)]; [left; exact W| | |]; cbn [snd] in W.
  - apply within_atom in W; [discriminate W|exact I].
  - apply within_list_inv in W. destruct W as [W|(x & [<-|[]] & W)]; [discriminate W|]. apply within_obj_inv in W. destruct W as [W|(kv & [<-|[]] & W)]; [injection W as ->; auto|].
    apply within_atom in W; [discriminate W|exact I].
  - apply within_list_inv in W. destruct W as [W|(x & [<-|[<-|[<-|[]]]] & W)]; [discriminate W| | |].
    + apply within_obj_inv in W. destruct W as [W|(kv & [<-|[<-|[]]] & W)]; [injection W as ->; auto| |]; apply within_atom in W; try discriminate W; exact I.
    + apply within_obj_inv in W. destruct W as [W|(kv & [<-|[]] & W)]; [injection W as ->; auto|]; apply within_atom in W; try discriminate W; exact I.
    + apply within_list_inv in W. destruct W as [W|(x & [] & W)]. discriminate W.
Qed.
Example c44_nonvacuous : plain_ld ex_ld /\ keys_ok ex_ld /\
  to_json true ex_ld = Ok (JObj [(lit "@id", JStr (lit "s")); (lit "@type", JStr (lit "t")); (lit "p", JList [JStr (lit "1"); JStr (lit "o"); JList []])]).
Proof.
  split; [|split; [|reflexivity]].
  - intros kvs k v W Hk E. apply within_ex in W. destruct W as [W|[->|[->| ->]]]; [injection W as ->| | |]; destruct Hk as [-> | ->]; cbn in E; try discriminate E; injection E as <-; eexists; reflexivity.
  - assert (B : forall kvs : list (pystr * json), (fix nd (l : list pystr) := match l with [] => true | x :: r => negb (str_mem x r) && nd r end) (map fst kvs) = true ->
      str_mem (lit "rdf:type") (map fst kvs) && str_mem (lit "@type") (map fst kvs) = false -> NoDup (map fst kvs) /\ ~ (In (lit "rdf:type") (map fst kvs) /\ In (lit "@type") (map fst kvs))).
    { intros kvs N T. split.
      - clear T. induction (map fst kvs) as [|x r IH]; [constructor|]. apply andb_prop in N. destruct N as [N1 N2]. constructor; [|apply IH, N2]. apply str_mem_false. destruct (str_mem x r); [discriminate N1|reflexivity].
      - intros [T1 T2]. apply str_mem_In in T1, T2. rewrite T1, T2 in T. discriminate T. }
    intros kvs W. apply B; apply within_ex in W; destruct W as [W|[->|[->| ->]]]; try (injection W as ->); vm_compute; reflexivity.
Qed.
(** Two cases where simplification is not what one would expect: native numbers and Booleans ({"@value": 5}, which JSON-LD allows) make the function fail, *)
Theorem c44_native_value_refuted : ~ forall j, exists r, to_json false j = Ok r.
Proof. intros H. destruct (H (JObj [(lit "@value", JInt 5)])) as [r Hr]. discriminate Hr. Qed.
(** and an '@id' that is itself an object (which JSON-LD does not allow) is only unwrapped once. *)
Theorem c44_nested_id_refuted : ~ forall j r, to_json false j = Ok r -> to_json false r = Ok r.
Proof. intros H. discriminate (H (JObj [(lit "@id", JObj [(lit "@id", JStr (lit "a"))])]) _ eq_refl). Qed.
(** Both 'rdf:type' and '@type': one of them is lost. *)
Theorem c44_two_types_refuted : ~ forall kvs kvs', to_json false (JObj kvs) = Ok (JObj kvs') -> length kvs' = length kvs.
Proof. intros H. discriminate (H [(lit "rdf:type", JStr (lit "a")); (lit "@type", JStr (lit "b"))] _ eq_refl). Qed.

(** ** C45 *)
Section C45.
Context {V : Type}.
Implicit Types (ts : list (triple V)).
Lemma of_row_all ts : (forall t, In t ts -> t_about t = None) -> of_row ts = ts /\ of_others ts = [].
Proof.
  unfold of_row, of_others. induction ts as [|t ts IH]; intros H; [split; reflexivity|]. cbn [filter]. rewrite (H t (or_introl eq_refl)).
  destruct IH as [I1 I2]; [intros t' It'; apply H; right; exact It'|]. rewrite I1, I2. split; reflexivity.
Qed.
Lemma filter_same {A} (f g : A -> bool) l : (forall a, In a l -> f a = g a) -> filter f l = filter g l.
Proof. intros H. induction l as [|a l IH]; [reflexivity|]. cbn [filter]. rewrite (H a (or_introl eq_refl)), IH; [reflexivity|]. intros x Ix. apply H. right. exact Ix. Qed.
Lemma group_row ts : (forall t, In t ts -> t_about t <> Some []) -> lists_apart ts -> row_object (of_row ts) (fst (group ts)) /\ snd (group ts) = merge (of_others ts).
Proof.
  intros N A.
  assert (E : forall t, In t ts -> no_subject t = match t_about t with None => true | _ => false end).
  { intros t It. unfold no_subject. pose proof (N t It) as X. revert X. destruct (t_about t) as [[|c s]|]; intros X; [contradiction X; reflexivity|reflexivity|reflexivity]. }
  assert (K : kinds no_subject ts).
  { intros t t' It It' Ep E1 E2. rewrite (E t It), (E t' It'). destruct (t_val t) as [|l] eqn:Ev; [discriminate E1|]. destruct (t_val t') as [|l'] eqn:Ev'; [discriminate E2|].
    pose proof (A t t' l l' It It' Ep Ev Ev') as X. revert X. destruct (t_about t), (t_about t'); intros X; try reflexivity; destruct X as [X Y]; [discriminate (Y eq_refl)|discriminate (X eq_refl)]. }
  destruct (group_spec ts K) as (G1 & G2 & G3 & G4). unfold of_row, of_others.
  rewrite <- (filter_same _ _ ts E). rewrite <- (filter_same (fun t => negb (no_subject t)) (fun t => match t_about t with None => false | _ => true end) ts).
  2: { intros t It. rewrite (E t It). destruct (t_about t); reflexivity. }
  split; [|exact G1]. constructor; [exact G2| |].
  - intros p Np. apply G3. intros t It Ep. unfold own_id. destruct (t_about t); [reflexivity|]. rewrite Ep. apply str_eqb_neq, Np.
  - apply G4. intros t It Ep En. rewrite (E t It) in En. unfold own_id. destruct (t_about t); [discriminate En|]. rewrite Ep. apply str_eqb_refl.
Qed.

(** A row without other subjects gives one object with its properties. *)
Theorem c45_row graph as_str ts : (forall t, In t ts -> t_about t = None) ->
  exists o, group_triples graph as_str ts = Ok [map (fun kv => (fst kv, Raw (snd kv))) o] /\ row_object ts o.
Proof.
  intros H. destruct (of_row_all ts H) as [E1 E2]. destruct (group_row ts) as [R O].
  - intros t It. rewrite (H t It). discriminate.
  - intros t t' l l' It It' _ _ _. rewrite (H t It), (H t' It'). reflexivity.
  - rewrite E1 in R. rewrite E2 in O. exists (fst (group ts)). split; [|exact R]. unfold group_triples. destruct (group ts) as [g o]. cbn [snd fst] in *. subst o. reflexivity.
Qed.
(** The combined value, if no list is among the values: the value itself, or the list of all values, in order; *)
Theorem c45_single_values (vs : list V) : combined (map One vs) = match vs with [] => None | [v] => Some (One v) | _ => Some (Many (map One vs)) end.
Proof.
  assert (E : one_list (map One vs) = map One vs) by (induction vs as [|v vs IH]; [reflexivity|cbn [map one_list]; rewrite IH; reflexivity]).
  unfold combined. rewrite E. destruct vs as [|v [|w vs]]; reflexivity.
Qed.
(** if all values are lists: the list of all items, in order. *)
Theorem c45_list_values (ls : list (list (tree V))) : ls <> [] -> combined (map Many ls) = Some (Many (concat ls)).
Proof.
  destruct ls as [|l ls]; intros N; [contradiction N; reflexivity|]. unfold combined. cbn [map one_list].
  assert (E1 : items_in (map Many ls) = concat ls) by (clear; induction ls as [|l ls IH]; [reflexivity|unfold items_in in *; cbn [map flat_map concat]; rewrite IH; reflexivity]).
  assert (E2 : filter (fun v : tree V => match v with One _ => true | _ => false end) (map Many ls) = []) by (clear; induction ls as [|l ls IH]; [reflexivity|exact IH]).
  rewrite E1, E2. reflexivity.
Qed.
(** o has the '@id' of the row; none if the row has none *)
Definition same_subject (as_str : V -> option pystr) (row : @object V) (o : jobj) : Prop :=
  match dget str_eqb row (lit "@id") with
  | None => dget str_eqb o (lit "@id") = None
  | Some v => exists x s, v = One x /\ as_str x = Some s /\ dget str_eqb o (lit "@id") = Some (JStr s)
  end.
Lemma same_id_iff as_str row o : same_id as_str (dget str_eqb o (lit "@id")) (dget str_eqb row (lit "@id")) = true <-> same_subject as_str row o.
Proof.
  unfold same_id, same_subject. destruct (dget str_eqb row (lit "@id")) as [[x|l]|].
  - destruct (dget str_eqb o (lit "@id")) as [[| | | |s| |]|]; (split; [try discriminate|try (intros (? & ? & _ & _ & K); discriminate K)]).
    + destruct (as_str x) as [s'|] eqn:E; [|discriminate]. intros K. apply str_eqb_eq in K. subst s'. exists x, s. auto.
    + intros (y & s' & K & E & K'). injection K as <-. injection K' as <-. rewrite E. apply str_eqb_refl.
  - destruct (dget str_eqb o (lit "@id")) as [[| | | | | |]|]; (split; [discriminate|intros (? & ? & K & _); discriminate K]).
  - destruct (dget str_eqb o (lit "@id")) as [[| | | | | |]|]; split; congruence.
Qed.
(** Other subjects: the graph of their triples - and of the row's, if it has an '@id' - is framed and simplified, and the result has the object with the '@id' of the row first,
    then the others in order; if the row has properties but no '@id' and there is only one object, it is merged into that of the row. *)
Theorem c45_subjects graph as_str ts out : (forall t, In t ts -> t_about t <> Some []) -> lists_apart ts -> of_others ts <> [] -> group_triples graph as_str ts = Ok out ->
  exists row items objs,
    row_object (of_row ts) row /\
    graph (merge (of_others ts) ++ match dget str_eqb row (lit "@id") with
                                   | None => []
                                   | Some i => map (fun kv => {| t_about := id_str as_str i; t_prop := fst kv; t_val := snd kv |}) (filter (fun kv => negb (str_eqb (fst kv) (lit "@id"))) row)
                                   end) = Ok items /\
    Forall2 (fun o o' => to_json true (JObj o) = Ok (JObj o')) (frame items) objs /\
    let raw := map (fun kv => (fst kv, Raw (snd kv))) row in
    let js (o : jobj) := map (fun kv => (fst kv, Js (snd kv))) o in
    ((row <> [] /\ dget str_eqb row (lit "@id") = None /\ exists o, objs = [o] /\ out = [dset_all str_eqb raw (js o)]) \/
     ((row = [] \/ dget str_eqb row (lit "@id") <> None \/ length objs <> 1%nat) /\
      exists own, (forall o, own o = true <-> same_subject as_str row o) /\ out = map js (first_those own objs))).
Proof.
  intros N A Ho H. destruct (group_row ts N A) as [R O]. unfold group_triples in H. destruct (group ts) as [row others]. cbn [fst snd] in R, O. exists row. subst others.
  assert (Nm : merge (of_others ts) <> []).
  { intros E. assert (X : firsts (map t_prop (merge (of_others ts))) = []) by (rewrite E; reflexivity). rewrite props_merge in X. destruct (of_others ts); [apply Ho; reflexivity|discriminate X]. }
  destruct (merge (of_others ts)) as [|m ms]; [contradiction Nm; reflexivity|].
  match type of H with bind ?e _ = _ => destruct e as [items|] eqn:Eg; [|discriminate H] end. cbn [bind] in H.
  destruct (described as_str row items) as [res|] eqn:Ed; [|discriminate H]. cbn [bind] in H. apply Ok_inj in H || idtac.
  unfold described in Ed. destruct (mapM (fun o => to_json true (JObj o)) (frame items)) as [js|] eqn:Ej; [|discriminate Ed]. cbn [bind] in Ed.
  destruct (mapM as_object js) as [objs|] eqn:Ea; [|discriminate Ed]. cbn [bind] in Ed. apply Ok_inj in Ed. 
  exists items, objs. split; [exact R|]. split; [reflexivity|]. split.
  { apply mapM_Forall2 in Ej. apply mapM_Forall2 in Ea. clear -Ej Ea. revert objs Ea. induction Ej as [|o j l m Hj F IH]; intros objs Ea; inversion Ea as [|j' o' m' l' Hj' F']; subst; constructor; [|apply IH, F'].
    rewrite Hj. destruct j; try discriminate Hj'. apply Ok_inj in Hj'. subst. reflexivity. }
  cbn zeta. rewrite sort_first with (own := fun o => same_id as_str (dget str_eqb o (lit "@id")) (dget str_eqb row (lit "@id"))) in Ed.
  fold (first_those (fun o : jobj => same_id as_str (dget str_eqb o (lit "@id")) (dget str_eqb row (lit "@id"))) objs) in Ed.
  assert (X : exists own, (forall o, own o = true <-> same_subject as_str row o) /\ first_those own objs = res) by (eexists; split; [intros o; apply same_id_iff|exact Ed]). clear Ed. destruct X as (own & Own & Ed).
  assert (L : length res = length objs).
  { rewrite <- Ed. unfold first_those. rewrite app_length. clear. induction objs as [|o objs IH]; [reflexivity|]. cbn [filter]. destruct (own _); cbn [negb length]; lia. }
  destruct row as [|kv row'] eqn:Er.
  { right. split; [left; reflexivity|]. exists own. split; [exact Own|]. apply Ok_inj in H. rewrite <- H, <- Ed. reflexivity. }
  rewrite <- Er in *. destruct (dget str_eqb row (lit "@id")) as [i|] eqn:Ei.
  { right. split; [right; left; discriminate|]. exists own. split; [exact Own|]. apply Ok_inj in H. rewrite <- H, <- Ed. reflexivity. }
  destruct res as [|o [|o2 res]].
  - right. split; [right; right; intros X; discriminate (eq_trans L X)|]. exists own. split; [exact Own|]. apply Ok_inj in H. rewrite <- H, <- Ed. reflexivity.
  - left. split; [rewrite Er; discriminate|]. split; [reflexivity|]. destruct objs as [|o' [|]]; try discriminate L. exists o. split.
    + unfold first_those in Ed. cbn [filter] in Ed. destruct (own _) in Ed; cbn in Ed; injection Ed as <-; reflexivity.
    + apply Ok_inj in H. symmetry. exact H.
  - right. split; [right; right; intros X; discriminate (eq_trans L X)|]. exists own. split; [exact Own|]. apply Ok_inj in H. rewrite <- H, <- Ed. reflexivity.
Qed.
End C45.
Definition ex_ts : list (triple Z) :=
  [ {| t_about := None; t_prop := lit "a"; t_val := One 1%Z |}; {| t_about := None; t_prop := lit "b"; t_val := Many [One 2%Z] |};
    {| t_about := None; t_prop := lit "a"; t_val := One 3%Z |}; {| t_about := None; t_prop := lit "b"; t_val := Many [One 4%Z; One 5%Z] |}; {| t_about := None; t_prop := lit "@id"; t_val := One 6%Z |} ].
Example c45_nonvacuous : (forall t, In t ex_ts -> t_about t = None) /\
  group_triples (fun _ => Ok []) (fun _ => None) ex_ts = Ok [[(lit "a", Raw (Many [One 1%Z; One 3%Z])); (lit "b", Raw (Many [One 2%Z; One 4%Z; One 5%Z])); (lit "@id", Raw (One 6%Z))]].
Proof. split; [|reflexivity]. intros t [<-|[<-|[<-|[<-|[<-|[]]]]]]; reflexivity. Qed.
(** A toy graph: every triple gives an object. *)
Definition toy_graph (ts : list (triple pystr)) : res (list jobj) :=
  Ok (map (fun t => [(lit "@id", JStr (match t_about t with Some s => s | None => [] end)); (t_prop t, JList [JObj [(lit "@value", JStr (match t_val t with One s => s | Many _ => [] end))]])]) ts).
Definition ex_ts2 : list (triple pystr) :=
  [ {| t_about := None; t_prop := lit "p"; t_val := One (lit "1") |}; {| t_about := Some (lit "x"); t_prop := lit "q"; t_val := One (lit "2") |};
    {| t_about := None; t_prop := lit "@id"; t_val := One (lit "s") |} ].
Example c45_subjects_nonvacuous : (forall t, In t ex_ts2 -> t_about t <> Some []) /\ lists_apart ex_ts2 /\ of_others ex_ts2 <> [] /\
  group_triples toy_graph Some ex_ts2 = Ok [[(lit "@id", Js (JStr (lit "s"))); (lit "p", Js (JStr (lit "1")))]; [(lit "@id", Js (JStr (lit "x"))); (lit "q", Js (JStr (lit "2")))]].
Proof.
  split; [intros t [<-|[<-|[<-|[]]]]; discriminate|]. split; [|split; [discriminate|vm_compute; reflexivity]].
  intros t t' l l' [<-|[<-|[<-|[]]]] _ _ E _; discriminate E.
Qed.
(** A value followed by a list: the list is nested. *)
Theorem c45_mixed_refuted : ~ forall (x y : nat), combined [One x; Many [One y]] = Some (Many [One x; One y]).
Proof. intros H. discriminate (H 0%nat 1%nat). Qed.
(** Lists given for different subjects are merged: what is given for [x] is not in the result, where the row has it. *)
Theorem c45_lists_shared_refuted : ~ forall (ts : list (triple pystr)), row_object (of_row ts) (fst (group ts)).
Proof.
  intros H. specialize (H [ {| t_about := None; t_prop := lit "p"; t_val := Many [One (lit "1")] |}; {| t_about := Some (lit "x"); t_prop := lit "p"; t_val := Many [One (lit "2")] |} ]).
  apply ro_values with (p := lit "p") in H; [|discriminate]. vm_compute in H. discriminate H.
Qed.
(** A row without '@id' but with two other subjects: the properties of the row itself are lost. *)
Theorem c45_row_lost_refuted : exists ts out, dget str_eqb (fst (group ts)) (lit "p") = Some (One (lit "1")) /\ group_triples toy_graph Some ts = Ok out /\
  forall o, In o out -> dget str_eqb o (lit "p") = None.
Proof.
  exists [ {| t_about := None; t_prop := lit "p"; t_val := One (lit "1") |}; {| t_about := Some (lit "x"); t_prop := lit "q"; t_val := One (lit "2") |};
    {| t_about := Some (lit "y"); t_prop := lit "q"; t_val := One (lit "3") |} ].
  exists [[(lit "@id", Js (JStr (lit "x"))); (lit "q", Js (JStr (lit "2")))]; [(lit "@id", Js (JStr (lit "y"))); (lit "q", Js (JStr (lit "3")))]].
  split; [reflexivity|]. split; [vm_compute; reflexivity|]. intros o [<-|[<-|[]]]; reflexivity.
Qed.
Print Assumptions c44_succeeds. Print Assumptions c44_fails. Print Assumptions c44_simplifies. Print Assumptions c44_simple. Print Assumptions c44_idempotent.
Print Assumptions c45_row. Print Assumptions c45_single_values. Print Assumptions c45_list_values. Print Assumptions c45_subjects.
