(** Proofs about valid_common_property. *)
From Verif Require Import PyStr Dsv Json Meta MetaSpec.
From Coq Require Import Permutation.
Local Open Scope nat_scope.

Section Dict.
Implicit Types kvs : list (pystr * json).
Lemma dget_Some_In {A} (d : list (pystr * A)) (k : pystr) v : dget str_eqb d k = Some v -> In (k, v) d.
Proof.
  induction d as [|[k' v'] d IH]; cbn; [discriminate|].
  destruct (str_eqb k k') eqn:E; [apply str_eqb_eq in E|]; intros H; [left; congruence|right; auto].
Qed.
Lemma dget_None_In {A} (d : list (pystr * A)) (k : pystr) : dget str_eqb d k = None -> ~ In k (map fst d).
Proof.
  induction d as [|[k' v'] d IH]; cbn; [auto|].
  destruct (str_eqb k k') eqn:E; [discriminate|]. apply str_eqb_neq in E. intros H [H1|H1]; [auto|apply IH; auto].
Qed.
Lemma In_dget {A} (d : list (pystr * A)) (k : pystr) v : NoDup (map fst d) -> In (k, v) d -> dget str_eqb d k = Some v.
Proof.
  induction d as [|[k' v'] d IH]; cbn; [tauto|]. intros N [H|H].
  - injection H as -> ->. rewrite str_eqb_refl. reflexivity.
  - apply NoDup_cons_iff in N. destruct N as [N1 N2]. destruct (str_eqb k k') eqn:E; [|auto].
    apply str_eqb_eq in E. subst k'. elim N1. apply in_map_iff. exists (k, v); auto.
Qed.
Lemma NotIn_dget {A} (d : list (pystr * A)) (k : pystr) : ~ In k (map fst d) -> dget str_eqb d k = None.
Proof.
  destruct (dget str_eqb d k) eqn:E; [|reflexivity]. apply dget_Some_In in E. intros H; elim H.
  apply in_map_iff. exists (k, a); auto.
Qed.
Lemma has_iff (k : pystr) kvs : has k kvs = true <-> In k (map fst kvs).
Proof.
  unfold has. rewrite existsb_exists, in_map_iff. unfold key_is. split.
  - intros ([k' v] & H & E). apply str_eqb_eq in E. exists (k', v); auto.
  - intros ([k' v] & E & H). exists (k', v). split; [auto|]. apply str_eqb_eq. exact E.
Qed.
End Dict.

Lemma startswith_iff p s : startswith p s = true <-> exists r, s = p ++ r.
Proof. apply startswith_spec. Qed.

Lemma known_type_iff s : known_type s = true <-> type_known s.
Proof.
  unfold known_type, type_known, is_url. rewrite !orb_true_iff, !startswith_iff, str_mem_In, existsb_exists.
  split.
  - intros [[[H|H]|(ns & H1 & H2)]|H]; auto.
    apply orb_true_iff in H2. destruct H2 as [H2|H2].
    + apply str_eqb_eq in H2. subst ns. auto.
    + apply startswith_iff in H2. destruct H2 as [r H2]. do 3 right. left. exists ns, r.
      rewrite <- app_assoc in H2. auto.
  - intros [H|[H|[H|[(ns & r & H1 & H2)|H]]]]; auto.
    + left; right. exists s. split; [exact H|]. rewrite str_eqb_refl. reflexivity.
    + left; right. exists ns. split; [exact H1|]. apply orb_true_iff; right. apply startswith_iff. exists r.
      rewrite <- app_assoc. exact H2.
Qed.

Definition id_ok (kvs : list (pystr * json)) : bool :=
  match dget str_eqb kvs (lit "@id") with Some (JStr s) => negb (startswith (lit "_") s) | _ => true end.
Definition object_check (kvs : list (pystr * json)) : bool :=
  check_at_keys kvs && check_value kvs && check_language kvs && id_ok kvs && check_type kvs.

Lemma at_keys_iff kvs : check_at_keys kvs = true <->
  forall k, In (lit "@" ++ k) (map fst kvs) -> In k [lit "id"; lit "language"; lit "type"; lit "value"].
Proof.
  unfold check_at_keys. rewrite forallb_forall. split.
  - intros H k Hk. apply in_map_iff in Hk. destruct Hk as ([k' v] & E & Hk). specialize (H _ Hk). cbn [fst] in *.
    subst k'. apply orb_true_iff in H. destruct H as [H|H].
    + replace (startswith (lit "@") (lit "@" ++ k)) with true in H; [discriminate|]. symmetry. apply startswith_iff. eauto.
    + apply str_mem_In in H. exact H.
  - intros H [k v] Hk. cbn [fst]. destruct (startswith (lit "@") k) eqn:E; [|reflexivity].
    apply startswith_iff in E. destruct E as [r E]. subst k. cbn [negb orb lit app tl].
    apply str_mem_In, H, in_map_iff. exists (lit "@" ++ r, v). auto.
Qed.

Lemma check_value_iff kvs : NoDup (map fst kvs) -> check_value kvs = true <->
  forall v, In (lit "@value", v) kvs -> kvs = [(lit "@value", v)] \/
      ((exists k x, (k = lit "@language" \/ k = lit "@type") /\ Permutation kvs [(lit "@value", v); (k, x)]) /\
       ((exists s, v = JStr s) \/ (exists b, v = JBool b) \/ (exists z, v = JInt z))).
Proof.
  intros N. unfold check_value. split.
  - intros H v Hv. assert (Hh : has (lit "@value") kvs = true). { apply has_iff, in_map_iff. exists (lit "@value", v); auto. }
    rewrite Hh in H. cbn [negb orb] in H.
    destruct kvs as [|kv1 [|kv2 [|kv3 kvs]]]; cbn [length] in H; [destruct Hv| | |discriminate].
    { left. destruct Hv as [->|[]]. reflexivity. }
    right. apply andb_true_iff in H. destruct H as [H1 H2]. rewrite (In_dget _ _ _ N Hv) in H2.
    split. 2:{ destruct v; try discriminate H2; eauto. }
    assert (HK : exists k, (k = lit "@language" \/ k = lit "@type") /\ In k (map fst [kv1; kv2])).
    { apply orb_true_iff in H1. destruct H1 as [H1|H1]; apply has_iff in H1; eauto. }
    destruct HK as (k & Hk & Hin). cbn [map In] in Hin, Hv, N.
    apply NoDup_cons_iff in N. destruct N as [N1 N2].
    assert (Hne : k <> lit "@value") by (destruct Hk as [->| ->]; discriminate).
    destruct Hv as [->|[->|[]]]; destruct Hin as [E|[E|[]]]; cbn [fst] in *.
    + congruence.
    + exists k, (snd kv2). split; [exact Hk|]. destruct kv2 as [k2 x2]; cbn in *; subst k2. reflexivity.
    + exists k, (snd kv1). split; [exact Hk|]. destruct kv1 as [k1 x1]; cbn in *; subst k1. apply perm_swap.
    + congruence.
  - intros H. destruct (has (lit "@value") kvs) eqn:Hh; [|reflexivity]. cbn [negb orb].
    apply has_iff, in_map_iff in Hh. destruct Hh as ([k v] & E & Hv). cbn [fst] in E. subst k.
    destruct (H v Hv) as [E|[(k & x & Hk & Hp) Ha]].
    + subst kvs. reflexivity.
    + rewrite (Permutation_length Hp). cbn [length]. rewrite (In_dget _ _ _ N Hv).
      apply andb_true_iff. split. 2:{ destruct Ha as [[? ->]|[[? ->]|[? ->]]]; reflexivity. }
      apply orb_true_iff. assert (Hin : In k (map fst kvs)).
      { apply in_map_iff. exists (k, x). split; [reflexivity|]. apply (Permutation_in _ (Permutation_sym Hp)). cbn; auto. }
      destruct Hk as [->| ->]; [left|right]; apply has_iff; exact Hin.
Qed.

Lemma object_check_iff kvs : NoDup (map fst kvs) -> object_check kvs = true <-> object_ok kvs.
Proof.
  intros N. unfold object_check. rewrite !andb_true_iff, at_keys_iff, (check_value_iff _ N). split.
  - intros ((((H1 & H2) & H3) & H4) & H5). split; [exact H1|exact H2| | |].
    + intros Hl. unfold check_language in H3. apply has_iff in Hl. rewrite Hl in H3. apply has_iff, H3.
    + intros r Hr. unfold id_ok in H4. rewrite (In_dget _ _ _ N Hr) in H4.
      replace (startswith (lit "_") (lit "_" ++ r)) with true in H4; [discriminate|]. symmetry. apply startswith_iff; eauto.
    + intros v Hv. unfold check_type in H5. rewrite (In_dget _ _ _ N Hv) in H5. destruct v; try discriminate H5; eauto.
      do 2 right. exists s. apply andb_true_iff in H5. destruct H5 as [H5 H6]. apply known_type_iff in H6.
      split; [reflexivity|]. split; [exact H6|]. intros r ->.
      replace (startswith (lit "_:") (lit "_:" ++ r)) with true in H5; [discriminate|]. symmetry. apply startswith_iff; eauto.
  - intros [H1 H2 H3 H4 H5]. repeat split; auto.
    + unfold check_language. destruct (has (lit "@language") kvs) eqn:E; [|reflexivity]. apply has_iff in E.
      cbn [negb orb]. apply has_iff, H3, E.
    + unfold id_ok. destruct (dget str_eqb kvs (lit "@id")) as [[| | | |s| |]|] eqn:E; try reflexivity.
      apply dget_Some_In in E. destruct (startswith (lit "_") s) eqn:E2; [|reflexivity].
      apply startswith_iff in E2. destruct E2 as [r ->]. elim (H4 _ E).
    + unfold check_type. destruct (dget str_eqb kvs (lit "@type")) as [v|] eqn:E; [|reflexivity].
      apply dget_Some_In, H5 in E. destruct E as [[l ->]|[[o ->]|(s & -> & K & B)]]; try reflexivity.
      apply andb_true_iff. split; [|apply known_type_iff, K].
      destruct (startswith (lit "_:") s) eqn:E2; [|reflexivity]. apply startswith_iff in E2. destruct E2 as [r E2].
      elim (B r E2).
Qed.

Section Common.
Variable tag_ok : pystr -> bool.
Notation vcp := (valid_common_property tag_ok).
Notation good := (good_language tag_ok).

(** the inner loops, as functions *)
Fixpoint go_items (kvs : list (pystr * json)) : res (list (pystr * json) * list mwarn) :=
  match kvs with
  | [] => Ok ([], [])
  | (k, x) :: rest =>
      if str_eqb k (lit "@language") && negb (good x) then go_items rest
      else
        y <- (if str_eqb k (lit "@id") then i <- valid_id_property x ;; Ok (fst i, []) else vcp x) ;;
        r <- go_items rest ;;
        Ok ((k, fst y) :: fst r, snd y ++ snd r)
  end.
Fixpoint go_list (l : list json) : res (list json * list mwarn) :=
  match l with
  | [] => Ok ([], [])
  | x :: rest => y <- vcp x ;; r <- go_list rest ;; Ok (fst y :: fst r, snd y ++ snd r)
  end.
Definition lang_warn (kvs : list (pystr * json)) : list mwarn :=
  match dget str_eqb kvs (lit "@language") with Some l => if good l then [] else [WLanguage] | None => [] end.
Definition id_warn (kvs : list (pystr * json)) : list mwarn :=
  match dget str_eqb kvs (lit "@id") with Some (JStr _) | None => [] | _ => [WLink] end.

Lemma vcp_obj kvs : vcp (JObj kvs) =
  if object_check kvs then r <- go_items kvs ;; Ok (JObj (fst r), id_warn kvs ++ lang_warn kvs ++ snd r) else Err ValueError.
Proof.
  unfold object_check, id_ok, id_warn. cbn [valid_common_property].
  destruct (check_at_keys kvs); [|reflexivity]. destruct (check_value kvs); [|reflexivity].
  destruct (check_language kvs); [|reflexivity]. cbn [negb andb].
  destruct (dget str_eqb kvs (lit "@id")) as [[| | | |s| |]|]; cbn [valid_id_property bind fst snd];
   try (destruct (startswith (lit "_") s); cbn [bind snd negb andb]; [reflexivity|]);
   destruct (check_type kvs); reflexivity.
Qed.
Lemma vcp_list l : vcp (JList l) = r <- go_list l ;; Ok (JList (fst r), snd r).
Proof. reflexivity. Qed.

Fixpoint clean_items (kvs : list (pystr * json)) : list (pystr * json) :=
  match kvs with
  | [] => []
  | (k, x) :: rest =>
     if str_eq_dec k (lit "@id") then (k, match x with JStr s => JStr s | _ => JNull end) :: clean_items rest
     else if str_eq_dec k (lit "@language") then
       match x with JStr s => if tag_ok s then (k, x) :: clean_items rest else clean_items rest | _ => clean_items rest end
     else (k, clean tag_ok x) :: clean_items rest
  end.
Lemma clean_obj kvs : clean tag_ok (JObj kvs) = JObj (clean_items kvs).
Proof. reflexivity. Qed.
Lemma good_iff x : good x = true <-> is_language tag_ok x.
Proof. unfold is_language. destruct x; cbn; split; intros H; try discriminate; try (destruct H as (? & H & ?); congruence). eauto. Qed.

Lemma wf_obj kvs : wf_json (JObj kvs) <-> NoDup (map fst kvs) /\ forall k x, In (k, x) kvs -> wf_json x.
Proof.
  cbn [wf_json]. apply and_iff_compat_l. induction kvs as [|[k x] kvs IH]; cbn [In]; [firstorder|].
  rewrite IH. split.
  - intros [H1 H2] k' x' [H|H]; [injection H as <- <-; exact H1|eauto].
  - intros H. split; [apply (H k x); auto|]. intros k' x' H'. apply (H k' x'); auto.
Qed.
Lemma wf_list l : wf_json (JList l) <-> forall x, In x l -> wf_json x.
Proof.
  cbn [wf_json]. induction l as [|x l IH]; cbn [In]; [firstorder|]. rewrite IH. split.
  - intros [H1 H2] x' [<-|H]; auto.
  - intros H; auto.
Qed.

Lemma ok_list l : common_ok (JList l) <-> forall x, In x l -> common_ok x.
Proof.
  unfold common_ok. split.
  - intros H x Hx kvs Hi. apply H. apply in_list with (x := x); auto.
  - intros H kvs Hi. inversion Hi as [E|l' x Hx Hi' E|]; [eauto].
Qed.
Lemma ok_obj kvs : common_ok (JObj kvs) <->
  object_ok kvs /\ forall k x, In (k, x) kvs -> k <> lit "@id" -> k <> lit "@language" -> common_ok x.
Proof.
  unfold common_ok. split.
  - intros H. split; [apply H; constructor|]. intros k x Hx N1 N2 o Hi. apply H. apply in_obj with (k := k) (x := x); auto.
  - intros [H1 H2] o Hi. inversion Hi as [E| |kvs' k x Hx N1 N2 Hi' E]; [subst; exact H1|eauto].
Qed.
Lemma nd_list l : no_defect tag_ok (JList l) <-> forall x, In x l -> no_defect tag_ok x.
Proof.
  unfold no_defect. split.
  - intros H x Hx kvs Hi. apply H. apply in_list with (x := x); auto.
  - intros H kvs Hi. inversion Hi as [E|l' x Hx Hi' E|]; [eauto].
Qed.
Lemma nd_obj kvs : no_defect tag_ok (JObj kvs) <->
  ((forall x, In (lit "@id", x) kvs -> exists s, x = JStr s) /\
   (forall x, In (lit "@language", x) kvs -> is_language tag_ok x)) /\
  forall k x, In (k, x) kvs -> k <> lit "@id" -> k <> lit "@language" -> no_defect tag_ok x.
Proof.
  unfold no_defect. split.
  - intros H. split; [apply H; constructor|]. intros k x Hx N1 N2 o Hi. apply H. apply in_obj with (k := k) (x := x); auto.
  - intros [H1 H2] o Hi. inversion Hi as [E| |kvs' k x Hx N1 N2 Hi' E]; [subst; exact H1|eauto].
Qed.
Lemma atom_ok v : (forall kvs, v <> JObj kvs) -> (forall l, v <> JList l) -> common_ok v /\ no_defect tag_ok v.
Proof.
  intros H1 H2. split; intros kvs Hi; inversion Hi as [E|l x Hx Hx' E|o k x Ho N1 N2 Ho' E];
    exfalso; first [eapply H1; eauto; fail|eapply H2; eauto; fail].
Qed.

(** accepted exactly if the rules hold, and then the value is the cleaned one *)
Lemma vcp_complete v : wf_json v -> common_ok v -> exists ws, vcp v = Ok (clean tag_ok v, ws).
Proof.
  induction v as [| | | | |l IH|kvs IH] using json_ind'; intros W H; try (eexists; reflexivity).
  - rewrite vcp_list. rewrite wf_list in W. rewrite ok_list in H.
    assert (G : exists ws, go_list l = Ok (map (clean tag_ok) l, ws)).
    { induction l as [|x l IHl]; [eexists; reflexivity|]. apply Forall_cons_iff in IH. destruct IH as [I1 I2].
      destruct (I1 (W x (or_introl eq_refl)) (H x (or_introl eq_refl))) as [w1 E1].
      destruct IHl as [w2 E2]; [exact I2|intros; apply W; right; auto|intros; apply H; right; auto|].
      cbn [go_list]. rewrite E1, E2. eexists; reflexivity. }
    destruct G as [ws G]. rewrite G. eexists; reflexivity.
  - rewrite vcp_obj. apply wf_obj in W. destruct W as [N W]. apply ok_obj in H. destruct H as [H1 H2].
    pose proof (proj2 (object_check_iff _ N) H1) as C. rewrite C.
    assert (Hid : forall r, ~ In (lit "@id", JStr (lit "_" ++ r)) kvs) by apply H1.
    assert (G : exists ws, go_items kvs = Ok (clean_items kvs, ws)).
    { clear C N H1. induction kvs as [|[k x] kvs IHl]; [eexists; reflexivity|].
      apply Forall_cons_iff in IH. destruct IH as [I1 I2]. cbn [snd] in I1.
      destruct IHl as [w2 E2]; [exact I2|intros; eapply W; right; eauto|intros; eapply H2; [right|..]; eauto|
        intros r Hr; apply (Hid r); right; auto|].
      cbn [go_items clean_items]. rewrite E2. destruct (str_eq_dec k (lit "@id")) as [->|N1].
      - rewrite str_eqb_refl. change (str_eqb (lit "@id") (lit "@language")) with false. cbn [andb].
        destruct x as [| | | |s| |]; cbn [valid_id_property bind fst snd]; try (eexists; reflexivity).
        destruct (startswith (lit "_") s) eqn:E; [|eexists; reflexivity].
        apply startswith_iff in E. destruct E as [r ->]. elim (Hid r). left; reflexivity.
      - rewrite (proj2 (str_eqb_neq k (lit "@id")) N1). destruct (str_eq_dec k (lit "@language")) as [->|N2].
        + rewrite str_eqb_refl. cbn [andb]. destruct x as [| | | |s| |]; cbn [good_language negb]; try (eexists; reflexivity).
          destruct (tag_ok s); cbn [negb]; [|eexists; reflexivity]. cbn. eexists; reflexivity.
        + rewrite (proj2 (str_eqb_neq _ _) N2). cbn [andb].
          destruct (I1 (W k x (or_introl eq_refl)) (H2 k x (or_introl eq_refl) N1 N2)) as [w1 E1].
          rewrite E1. eexists; reflexivity. }
    destruct G as [ws G]. rewrite G. eexists; reflexivity.
Qed.

Lemma vcp_sound v : wf_json v -> forall w ws, vcp v = Ok (w, ws) -> common_ok v /\ (ws = [] <-> no_defect tag_ok v).
Proof.
  induction v as [| | | | |l IH|kvs IH] using json_ind'; intros W w ws;
    try (intros E; injection E as <- <-; edestruct atom_ok as [A1 A2];
         [| |split; [exact A1|split; [intros _; exact A2|reflexivity]]]; discriminate).
  - rewrite vcp_list. intros E. rewrite wf_list in W. rewrite ok_list, nd_list.
    assert (G : forall r, go_list l = Ok r -> (forall x, In x l -> common_ok x) /\
                 (snd r = [] <-> forall x, In x l -> no_defect tag_ok x)).
    { clear E. induction l as [|x l IHl]; intros r E.
      - injection E as <-. cbn. split; [tauto|]. split; [tauto|reflexivity].
      - apply Forall_cons_iff in IH. destruct IH as [I1 I2]. cbn [go_list] in E.
        destruct (vcp x) as [[y wy]|] eqn:E1; [|discriminate]. cbn [bind] in E.
        destruct (go_list l) as [[r' wr]|] eqn:E2; [|discriminate]. cbn [bind] in E. injection E as <-. cbn [fst snd].
        destruct (I1 (W x (or_introl eq_refl)) _ _ eq_refl) as [A1 A2].
        destruct (IHl I2 (fun z Hz => W z (or_intror Hz)) _ eq_refl) as [B1 B2]. cbn [snd] in B2. split.
        + intros z [<-|Hz]; auto.
        + split.
          * intros Hn. apply app_eq_nil in Hn. destruct Hn as [-> ->]. intros z [<-|Hz]; [apply A2; reflexivity|].
            apply B2; auto.
          * intros Hz. rewrite (proj2 A2), (proj2 B2); [reflexivity| |]; intros; apply Hz; cbn; auto. }
    destruct (go_list l) as [r|]; [|discriminate]. injection E as <- <-. apply (G r eq_refl).
  - rewrite vcp_obj. apply wf_obj in W. destruct W as [N W]. rewrite ok_obj, nd_obj.
    destruct (object_check kvs) eqn:C; [|discriminate]. apply (object_check_iff _ N) in C. intros E.
    assert (G : forall r, go_items kvs = Ok r ->
                 (forall k x, In (k, x) kvs -> k <> lit "@id" -> k <> lit "@language" -> common_ok x) /\
                 (snd r = [] <-> forall k x, In (k, x) kvs -> k <> lit "@id" -> k <> lit "@language" -> no_defect tag_ok x)).
    { clear E C N. induction kvs as [|[k x] kvs IHl]; intros r E.
      - injection E as <-. cbn. split; [tauto|]. split; [tauto|reflexivity].
      - apply Forall_cons_iff in IH. destruct IH as [I1 I2]. cbn [snd] in I1. cbn [go_items] in E.
        specialize (IHl I2 (fun k' z Hz => W k' z (or_intror Hz))).
        destruct (str_eqb k (lit "@language") && negb (good x)) eqn:D.
        { apply andb_true_iff in D. destruct D as [D _]. apply str_eqb_eq in D. subst k. destruct (IHl _ E) as [B1 B2]. split.
          - intros k' z [Hz|Hz] N1 N2; [congruence|eauto].
          - rewrite B2. split; [intros Hz k' z [Hz'|Hz'] N1 N2; [congruence|eauto]|intros Hz k' z Hz'; apply Hz; right; auto]. }
        destruct (str_eqb k (lit "@id")) eqn:D2.
        { apply str_eqb_eq in D2. subst k. destruct (valid_id_property x) as [[i wi]|]; [|discriminate]. cbn [bind] in E.
          destruct (go_items kvs) as [[r' wr]|] eqn:E2; [|discriminate]. cbn [bind] in E. injection E as <-. cbn [fst snd app].
          destruct (IHl _ eq_refl) as [B1 B2]. split.
          - intros k' z [Hz|Hz] N1 N2; [congruence|eauto].
          - cbn [snd] in B2. rewrite B2. split; [intros Hz k' z [Hz'|Hz'] N1 N2; [congruence|eauto]|intros Hz k' z Hz'; apply Hz; right; auto]. }
        destruct (vcp x) as [[y wy]|] eqn:E1; [|discriminate]. cbn [bind] in E.
        destruct (go_items kvs) as [[r' wr]|] eqn:E2; [|discriminate]. cbn [bind] in E. injection E as <-. cbn [fst snd].
        destruct (I1 (W k x (or_introl eq_refl)) _ _ eq_refl) as [A1 A2].
        destruct (IHl _ eq_refl) as [B1 B2]. cbn [snd] in B2. split.
        + intros k' z [Hz|Hz] N1 N2; [injection Hz as <- <-; exact A1|eauto].
        + split.
          * intros Hn. apply app_eq_nil in Hn. destruct Hn as [-> ->]. intros k' z [Hz|Hz] N1 N2.
            -- injection Hz as <- <-. apply A2; reflexivity.
            -- apply (proj1 B2 eq_refl k'); auto.
          * intros Hz. rewrite (proj2 B2); [|intros; eapply Hz; [right|..]; eauto].
            destruct (str_eq_dec k (lit "@language")) as [->|N2].
            -- rewrite str_eqb_refl in D. cbn [andb] in D. apply negb_false_iff, good_iff in D.
               destruct D as (s & -> & _). injection E1 as <- <-. reflexivity.
            -- apply str_eqb_neq in D2. rewrite (proj2 A2); [reflexivity|]. apply (Hz k x); cbn; auto. }
    destruct (go_items kvs) as [r|]; [|discriminate]. injection E as <- <-. destruct (G r eq_refl) as [G1 G2]. split; [auto|].
    assert (LW : lang_warn kvs = [] <-> forall x, In (lit "@language", x) kvs -> is_language tag_ok x).
    { unfold lang_warn. destruct (dget str_eqb kvs (lit "@language")) as [x|] eqn:D.
      - apply dget_Some_In in D. destruct (good x) eqn:Gx.
        + split; [|reflexivity]. intros _ x' Hx'. apply good_iff.
          pose proof (In_dget _ _ _ N D) as Q1. pose proof (In_dget _ _ _ N Hx') as Q2. congruence.
        + split; [discriminate|]. intros Hx. specialize (Hx _ D). apply good_iff in Hx. congruence.
      - split; [|reflexivity]. intros _ x Hx. apply dget_None_In in D. elim D. apply in_map_iff. exists (lit "@language", x); auto. }
    assert (IW : id_warn kvs = [] <-> forall x, In (lit "@id", x) kvs -> exists s, x = JStr s).
    { unfold id_warn. destruct (dget str_eqb kvs (lit "@id")) as [x|] eqn:D.
      - apply dget_Some_In in D.
        assert (U : forall x', In (lit "@id", x') kvs -> x' = x).
        { intros x' Hx'. pose proof (In_dget _ _ _ N D) as Q1. pose proof (In_dget _ _ _ N Hx') as Q2. congruence. }
        destruct x; (split; [try discriminate; try (intros _ x' Hx'; rewrite (U _ Hx'); eauto)|
                     try reflexivity; intros Hx; destruct (Hx _ D); discriminate]).
      - split; [|reflexivity]. intros _ x Hx. apply dget_None_In in D. elim D. apply in_map_iff. exists (lit "@id", x); auto. }
    rewrite <- LW, <- IW, <- G2. split.
    + intros H. apply app_eq_nil in H. destruct H as [H1 H]. apply app_eq_nil in H. tauto.
    + intros [[-> ->] ->]. reflexivity.
Qed.

Lemma valid_id_err v e : valid_id_property v = Err e -> e = ValueError.
Proof. unfold valid_id_property. destruct v; try discriminate. destruct (startswith (lit "_") s); congruence. Qed.
Lemma vcp_err v : forall e, vcp v = Err e -> e = ValueError.
Proof.
  induction v as [| | | | |l IH|kvs IH] using json_ind'; intros e; try discriminate.
  - rewrite vcp_list. assert (G : go_list l = Err e -> e = ValueError).
    { induction l as [|x l IHl]; cbn [go_list]; [discriminate|]. apply Forall_cons_iff in IH. destruct IH as [I1 I2].
      destruct (vcp x) as [y|e'] eqn:E1; cbn [bind]; [|intros E; injection E as <-; auto].
      destruct (go_list l); cbn [bind]; [discriminate|auto]. }
    destruct (go_list l); cbn [bind]; [discriminate|intros E; injection E as ->; auto].
  - rewrite vcp_obj. destruct (object_check kvs); [|congruence]. assert (G : go_items kvs = Err e -> e = ValueError).
    { induction kvs as [|[k x] kvs IHl]; cbn [go_items]; [discriminate|]. apply Forall_cons_iff in IH. destruct IH as [I1 I2].
      destruct (str_eqb k (lit "@language") && negb (good x)); [auto|].
      destruct (str_eqb k (lit "@id")).
      - destruct (valid_id_property x) as [i|e'] eqn:E1; cbn [bind].
        + destruct (go_items kvs); cbn [bind]; [discriminate|auto].
        + intros E; injection E as <-. apply valid_id_err in E1. exact E1.
      - cbn [snd] in I1. destruct (vcp x) as [y|e'] eqn:E1; cbn [bind]; [|intros E; injection E as <-; auto].
        destruct (go_items kvs); cbn [bind]; [discriminate|auto]. }
    destruct (go_items kvs); cbn [bind]; [discriminate|intros E; injection E as ->; auto].
Qed.

Lemma clean_same v : no_defect tag_ok v -> clean tag_ok v = v.
Proof.
  induction v as [| | | | |l IH|kvs IH] using json_ind'; intros H; try reflexivity.
  - rewrite nd_list in H. cbn [clean]. f_equal. induction l as [|x l IHl]; [reflexivity|].
    apply Forall_cons_iff in IH. destruct IH as [I1 I2]. cbn [map].
    rewrite I1, IHl; [reflexivity|auto|intros; apply H; right; auto|apply H; left; auto].
  - rewrite nd_obj in H. destruct H as [[H1 H2] H3]. rewrite clean_obj. f_equal.
    induction kvs as [|[k x] kvs IHl]; [reflexivity|]. apply Forall_cons_iff in IH. destruct IH as [I1 I2]. cbn [snd] in I1.
    cbn [clean_items]. rewrite IHl; [|exact I2|intros; apply H1; right; auto|intros; apply H2; right; auto|
      intros; eapply H3; [right|..]; eauto].
    destruct (str_eq_dec k (lit "@id")) as [->|N1].
    + destruct (H1 x (or_introl eq_refl)) as [s ->]. reflexivity.
    + destruct (str_eq_dec k (lit "@language")) as [->|N2].
      * destruct (H2 x (or_introl eq_refl)) as (s & -> & T). rewrite T. reflexivity.
      * rewrite I1; [reflexivity|]. apply (H3 k x); cbn; auto.
Qed.

Lemma clean_idem v : clean tag_ok (clean tag_ok v) = clean tag_ok v.
Proof.
  induction v as [| | | | |l IH|kvs IH] using json_ind'; try reflexivity.
  - cbn [clean]. f_equal. rewrite map_map. apply map_ext_in. intros x Hx. rewrite Forall_forall in IH. auto.
  - rewrite clean_obj, clean_obj. f_equal. induction kvs as [|[k x] kvs IHl]; [reflexivity|].
    apply Forall_cons_iff in IH. destruct IH as [I1 I2]. cbn [snd] in I1. specialize (IHl I2). cbn [clean_items].
    destruct (str_eq_dec k (lit "@id")) as [->|N1].
    + cbn [clean_items]. destruct (str_eq_dec (lit "@id") (lit "@id")); [|congruence]. rewrite IHl. destruct x; reflexivity.
    + destruct (str_eq_dec k (lit "@language")) as [->|N2].
      * destruct x as [| | | |s| |]; try exact IHl. destruct (tag_ok s) eqn:T; [|exact IHl].
        cbn [clean_items]. destruct (str_eq_dec (lit "@language") (lit "@id")); [congruence|].
        destruct (str_eq_dec (lit "@language") (lit "@language")); [|congruence]. rewrite T, IHl. reflexivity.
      * cbn [clean_items]. destruct (str_eq_dec k (lit "@id")); [congruence|].
        destruct (str_eq_dec k (lit "@language")); [congruence|]. rewrite I1, IHl. reflexivity.
Qed.
End Common.
