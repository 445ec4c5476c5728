(** Proofs about reading tables, continued: messages, header matching. *)
From Verif Require Import PyStr PyCsv Dsv DsvSpec DsvProofs4 Column ColumnProofs2 Schema Table TableSpec TableProofs.
From Coq Require Import Lia.

Lemma sel_flat_map {A B} (P : A -> Prop) (F : A -> list B) (g : A -> B) l :
  (forall j, In j l -> (P j /\ F j = [g j]) \/ (~ P j /\ F j = [])) ->
  exists sel, Selected P l sel /\ flat_map F l = map g sel.
Proof.
  induction l as [|a l IH]; intros H.
  - exists []. split; [constructor|reflexivity].
  - destruct IH as (sel & S1 & S2); [intros j Hj; apply H; right; exact Hj|].
    destruct (H a (or_introl eq_refl)) as [[Hp Hf]|[Hp Hf]]; cbn [flat_map]; rewrite Hf, S2.
    + exists (a :: sel). split; [constructor; assumption|reflexivity].
    + exists sel. split; [constructor; assumption|reflexivity].
Qed.
Lemma combine_seq {A} (l : list A) s : combine (seq s (length l)) l = flat_map (fun j => match nth_error l (j - s) with Some a => [(j, a)] | None => [] end) (seq s (length l)).
Proof.
  revert s; induction l as [|a l IH]; intros s; [reflexivity|]. cbn [length seq combine flat_map].
  rewrite Nat.sub_diag. cbn [nth_error app]. f_equal. rewrite IH. rewrite !flat_map_concat_map. f_equal.
  apply map_ext_in. intros j Hj. apply in_seq in Hj. replace (j - s)%nat with (S (j - S s)) by lia. reflexivity.
Qed.
Lemma flat_map_flat_map {A B C} (f : A -> list B) (g : B -> list C) l :
  flat_map g (flat_map f l) = flat_map (fun a => flat_map g (f a)) l.
Proof. induction l as [|a l IH]; [reflexivity|]. cbn. rewrite flat_map_app, IH. reflexivity. Qed.
Lemma flat_map_map' {A B C} (f : A -> B) (g : B -> list C) l : flat_map g (map f l) = flat_map (fun a => g (f a)) l.
Proof. induction l as [|a l IH]; [reflexivity|]. cbn. rewrite IH. reflexivity. Qed.
Lemma flat_map_nil {A B} (f : A -> list B) l : (forall a, In a l -> f a = []) -> flat_map f l = [].
Proof. induction l as [|a l IH]; intros H; [reflexivity|]. cbn. rewrite (H a (or_introl eq_refl)), IH; [reflexivity|]. intros x Hx. apply H. right. exact Hx. Qed.
Lemma nth_error_seq n s j : (j < n)%nat -> nth_error (seq s n) j = Some (s + j)%nat.
Proof. revert s j; induction n as [|n IH]; intros s j H; [lia|]. destruct j; cbn; [f_equal; lia|]. rewrite IH by lia. f_equal; lia. Qed.

Section P.
Context {V : Type} (sc : scalars V).
Implicit Types (c : tcol V) (d : dict V).
Notation hcs := (list (pystr * option (tcol V))).

(** ** bad cells *)
Lemma cells_msgs_flat line (hc : hcs) : forall row j, cells_msgs sc line j hc row =
  flat_map (fun i => match nth_error hc i, nth_error row i with
                     | Some (k, Some c), Some v =>
                         match fst (col_read sc true (tc_st c) v) with Ok _ => [] | Err _ => [BadCell line (S (j + i)) k] end
                     | _, _ => [] end) (seq 0 (length hc)).
Proof.
  induction hc as [|[k oc] hc IH]; intros row j; [reflexivity|].
  cbn [length seq flat_map nth_error]. rewrite <- seq_shift, flat_map_map'. cbn [nth_error].
  destruct row as [|v row].
  - cbn [nth_error]. replace (cells_msgs sc line j ((k, oc) :: hc) []) with (@nil lmsg) by (destruct oc; reflexivity).
    destruct oc; cbn [app]; symmetry; apply flat_map_nil; intros x _; destruct (nth_error hc x) as [[? [?|]]|]; reflexivity.
  - cbn [nth_error]. assert (E : forall i, (S (j + S i)) = S (S j + i)) by lia.
    destruct oc as [c|]; cbn [cells_msgs]; rewrite IH.
    + destruct (fst (col_read sc true (tc_st c) v)); cbn [app]; rewrite ?Nat.add_0_r;
        [|f_equal]; rewrite !flat_map_concat_map; f_equal; apply map_ext; intros i; rewrite E; reflexivity.
    + cbn [app]. rewrite !flat_map_concat_map. f_equal. apply map_ext. intros i; rewrite E; reflexivity.
Qed.
Lemma nth_fst (hc : hcs) i k oc : nth_error hc i = Some (k, oc) -> nth i (map fst hc) [] = k.
Proof. intros H. apply nth_error_nth. rewrite nth_error_map, H. reflexivity. Qed.
Lemma cells_msgs_sel line (hc : hcs) row : only_value_errors sc hc row -> exists bad,
  Selected (cell_error sc hc row) (seq 0 (length hc)) bad
  /\ cells_msgs sc line 0 hc row = map (fun j => BadCell line (S j) (nth j (map fst hc) [])) bad.
Proof.
  intros Ho. rewrite cells_msgs_flat. apply sel_flat_map. intros i _.
  destruct (nth_error hc i) as [[k [c|]]|] eqn:E1.
  - destruct (nth_error row i) as [v|] eqn:E2.
    + destruct (fst (col_read sc true (tc_st c) v)) as [x|e] eqn:E3.
      * right. split; [|reflexivity]. intros (k' & c' & v' & H1 & H2 & H3). rewrite E1 in H1. injection H1 as <- <-.
        rewrite E2 in H2. injection H2 as <-. congruence.
      * left. split.
        { exists k, c, v. rewrite (Ho i k c v e E1 E2 E3) in E3. auto. }
        rewrite (nth_fst _ _ _ _ E1). reflexivity.
    + right. split; [|reflexivity]. intros (k' & c' & v' & H1 & H2 & H3). congruence.
  - right. split; [|reflexivity]. intros (k' & c' & v' & H1 & H2 & H3). rewrite E1 in H1. discriminate.
  - right. split; [|reflexivity]. intros (k' & c' & v' & H1 & H2 & H3). rewrite E1 in H1. discriminate.
Qed.

(** ** keys of the dict *)
Definition entry_key (e : pystr * option (tcol V)) : pystr := match snd e with Some c => tc_header c | None => fst e end.
Lemma cells_dict_keys ps : forall d k, dget str_eqb (cells_dict sc ps d) k <> None ->
  dget str_eqb d k <> None \/ exists e v, In (e, v) ps /\ entry_key e = k.
Proof.
  induction ps as [|[[h oc] v] ps IH]; intros d k H; [left; exact H|].
  assert (G : forall x, dget str_eqb (cells_dict sc ps (dset str_eqb d (entry_key (h, oc)) x)) k <> None ->
    dget str_eqb d k <> None \/ exists e v0, In (e, v0) (((h, oc), v) :: ps) /\ entry_key e = k).
  { intros x Hx. apply IH in Hx. destruct Hx as [Hx|(e & v0 & Hin & He)].
    - rewrite dget_dset_s in Hx. destruct (str_eqb k (entry_key (h, oc))) eqn:E; [|left; exact Hx].
      right. apply str_eqb_eq in E. exists (h, oc), v. split; [left; reflexivity|symmetry; exact E].
    - right. exists e, v0. split; [right; exact Hin|exact He]. }
  destruct oc as [c|]; cbn [cells_dict] in H.
  - destruct (fst (col_read sc true (tc_st c) v)) as [x|e]; [apply (G x H)|].
    apply IH in H. destruct H as [H|(e0 & v0 & Hin & He)]; [left; exact H|]. right. exists e0, v0. split; [right; exact Hin|exact He].
  - apply (G _ H).
Qed.

(** ** missing cells *)
(** what is needed of the header columns: names occur once, and a name that is the header of a column in the file is that column's name *)
Definition coherent (hc : hcs) : Prop :=
  NoDup (map fst hc) /\ forall k k' c', In k (map fst hc) -> In (k', Some c') hc -> tc_header c' = k -> k' = k.
Lemma each_once_coherent cols hdr hc : matched cols hdr hc -> each_once hc -> coherent hc.
Proof.
  intros (M1 & M2 & M3) (O1 & O2). split; [exact O1|]. intros k k' c' Hk Hk' Hh.
  apply in_map_iff in Hk. destruct Hk as ([k0 oc] & E0 & Hk). cbn in E0. subst k0.
  destruct (M2 _ _ Hk') as (C1 & C2 & C3). destruct oc as [c|].
  - destruct (M2 _ _ Hk) as (D1 & D2 & D3).
    assert (Hc : tc_header c = k). { apply D3. rewrite <- Hh. apply in_map. exact C1. }
    apply In_nth_error in Hk. destruct Hk as [i Hi]. apply In_nth_error in Hk'. destruct Hk' as [j Hj].
    assert (i = j) by (eapply O2; [exact Hi|exact Hj|congruence]). subst j. rewrite Hi in Hj. congruence.
  - exfalso. apply (M3 _ Hk c' C1). left. symmetry. exact Hh.
Qed.
Lemma nodup_nth {A} (l : list A) i j x : NoDup l -> nth_error l i = Some x -> nth_error l j = Some x -> i = j.
Proof.
  intros H Hi Hj. eapply (proj1 (NoDup_nth_error l) H); [|congruence]. apply nth_error_Some. congruence.
Qed.
Lemma in_firstn {A} (l : list A) n x : In x (firstn n l) <-> exists i, (i < n)%nat /\ nth_error l i = Some x.
Proof.
  revert n; induction l as [|a l IH]; intros n.
  - rewrite firstn_nil. split; [intros []|]. intros ([|i] & _ & H); discriminate.
  - destruct n as [|n]; cbn; [split; [intros []|intros (i & H & _); lia]|]. rewrite IH. split.
    + intros [->|(i & H & E)]; [exists 0%nat; split; [lia|reflexivity]|exists (S i); split; [lia|exact E]].
    + intros ([|i] & H & E); [left; cbn in E; congruence|right; exists i; split; [lia|exact E]].
Qed.
Lemma required_keys_flat (hc : hcs) : NoDup (map fst hc) ->
  required_keys hc = flat_map (fun j => match nth_error hc j with
                                        | Some (k, Some c) => if tc_required c then [(k, j)] else []
                                        | _ => [] end) (seq 0 (length hc)).
Proof.
  intros Hn. unfold required_keys. rewrite combine_seq, flat_map_flat_map.
  assert (E : flat_map (fun a => flat_map (fun je : nat * (pystr * option (tcol V)) => match snd (snd je) with
      | Some c => if tc_required c then [(fst (snd je), fst je)] else [] | None => [] end)
      match nth_error hc (a - 0) with Some a0 => [(a, a0)] | None => [] end) (seq 0 (length hc))
    = flat_map (fun j => match nth_error hc j with
                                        | Some (k, Some c) => if tc_required c then [(k, j)] else []
                                        | _ => [] end) (seq 0 (length hc))).
  { rewrite !flat_map_concat_map. f_equal. apply map_ext. intros j. rewrite Nat.sub_0_r.
    destruct (nth_error hc j) as [[k [c|]]|]; cbn; [destruct (tc_required c)|..]; reflexivity. }
  rewrite E. apply (dset_all_new _ str_eqb_eq). cbn [map app].
  clear E. assert (G : forall l, NoDup l -> NoDup (map fst (flat_map (fun j => match nth_error hc j with
                                        | Some (k, Some c) => if tc_required c then [(k, j)] else []
                                        | _ => [] end) l))).
  { induction l as [|j l IH]; intros Hl; [constructor|]. apply NoDup_cons_iff in Hl. destruct Hl as [Hj Hl].
    cbn [flat_map]. destruct (nth_error hc j) as [[k [c|]]|] eqn:E; cbn [app map]; auto.
    destruct (tc_required c); cbn [app map fst]; auto. constructor; [|auto].
    intros Hin. apply in_map_iff in Hin. destruct Hin as ([k' j'] & E' & Hin). cbn in E'. subst k'.
    apply in_flat_map in Hin. destruct Hin as (i & Hi & Hin).
    destruct (nth_error hc i) as [[k' [c'|]]|] eqn:Ei; try destruct Hin. destruct (tc_required c'); [|destruct Hin].
    destruct Hin as [Hin|[]]. injection Hin as -> ->. apply Hj.
    assert (j = j'); [|congruence]. eapply (nodup_nth (map fst hc)); [exact Hn| |]; rewrite nth_error_map, ?E, ?Ei; reflexivity. }
  apply G. apply seq_NoDup.
Qed.
Lemma missing_sel line (hc : hcs) row : coherent hc -> exists missing,
  Selected (cell_missing hc row) (seq 0 (length hc)) missing
  /\ missing_cells line hc row (cells_dict sc (combine hc row) []) = map (fun j => MissingCell line (S j) (nth j (map fst hc) [])) missing.
Proof.
  intros [Hn Hc]. unfold missing_cells. rewrite (required_keys_flat hc Hn), flat_map_flat_map. apply sel_flat_map. intros j _.
  destruct (nth_error hc j) as [[k [c|]]|] eqn:E.
  2, 3: right; split; [|reflexivity]; intros (k' & c' & H1 & _); rewrite E in H1; discriminate.
  destruct (tc_required c) eqn:Er.
  2: { right. split; [|reflexivity]. intros (k' & c' & H1 & H2 & _). rewrite E in H1. injection H1 as <- <-. congruence. }
  cbn [flat_map fst snd]. rewrite app_nil_r.
  destruct (Nat.ltb_spec j (length row)) as [Hlt|Hge].
  - right. split; [intros (k' & c' & _ & _ & H); lia|].
    replace (str_mem k (seen_keys hc (length row))) with true; [reflexivity|]. symmetry. apply str_mem_In.
    unfold seen_keys. apply in_flat_map. exists (k, Some c). split; [|left; reflexivity].
    apply in_firstn. exists j. auto.
  - left. split; [exists k, c; auto|].
    replace (str_mem k (seen_keys hc (length row))) with false.
    2: { symmetry. apply str_mem_false. unfold seen_keys. intros Hin. apply in_flat_map in Hin. destruct Hin as ([k' oc] & Hin & Hk).
         apply in_firstn in Hin. destruct Hin as (i & Hi & Ei). destruct oc as [c'|]; [|destruct Hk]. destruct Hk as [Hk|[]]. cbn in Hk. subst k'.
         assert (i = j); [|lia]. eapply (nodup_nth (map fst hc)); [exact Hn| |]; rewrite nth_error_map, ?E, ?Ei; reflexivity. }
    destruct (dget str_eqb (cells_dict sc (combine hc row) []) k) eqn:Ed.
    2: { rewrite (nth_fst _ _ _ _ E). reflexivity. }
    exfalso. destruct (cells_dict_keys (combine hc row) [] k) as [H|([k' oc] & v & Hin & He)]; [rewrite Ed; discriminate|exact (H eq_refl)|].
    apply In_nth_error in Hin. destruct Hin as [i Hi].
    assert (Hi1 : nth_error hc i = Some (k', oc) /\ nth_error row i = Some v).
    { clear -Hi. revert row i Hi. induction hc as [|a hc IH]; intros [|b row] [|i] Hi; try discriminate.
      - cbn in Hi. injection Hi as -> ->. auto.
      - cbn in Hi. apply IH in Hi. exact Hi. }
    destruct Hi1 as [Hi1 Hi2]. assert (i < length row)%nat by (apply nth_error_Some; congruence).
    assert (k' = k).
    { destruct oc as [c'|]; cbn in He; [|exact He]. eapply Hc; [|eapply nth_error_In; exact Hi1|exact He].
      apply in_map_iff. exists (k, Some c). split; [reflexivity|eapply nth_error_In; exact E]. }
    subst k'. assert (i = j); [|lia]. eapply (nodup_nth (map fst hc)); [exact Hn| |]; rewrite nth_error_map, ?E, ?Hi1; reflexivity.
Qed.

Lemma row_messages_ok line (hc : hcs) row : only_value_errors sc hc row -> coherent hc ->
  row_messages sc hc line row (row_msgs sc line hc row).
Proof.
  intros H1 H2. destruct (cells_msgs_sel line hc row H1) as (bad & B1 & B2).
  destruct (missing_sel line hc row H2) as (ms & M1 & M2). exists bad, ms. split; [exact B1|]. split; [exact M1|].
  unfold row_msgs. rewrite B2, M2. reflexivity.
Qed.
Lemma selected_nil {A} (P : A -> Prop) l l' : Selected P l l' -> l' = [] <-> forall x, In x l -> ~ P x.
Proof.
  intros H. induction H as [|x l l' Hp H IH|x l l' Hp H IH].
  - split; [intros _ x []|reflexivity].
  - split; [discriminate|]. intros G. exfalso. exact (G x (or_introl eq_refl) Hp).
  - rewrite IH. split; [intros G y [<-|Hy]; auto|intros G y Hy; apply G; right; exact Hy].
Qed.
Lemma row_good_iff line (hc : hcs) row : only_value_errors sc hc row -> coherent hc ->
  row_msgs sc line hc row = [] <-> row_good sc hc row.
Proof.
  intros H1 H2. destruct (row_messages_ok line hc row H1 H2) as (bad & ms & B & M & ->). split.
  - intros E. apply app_eq_nil in E. destruct E as [E1 E2]. apply map_eq_nil in E1. apply map_eq_nil in E2.
    pose proof (proj1 (selected_nil _ _ _ B) E1) as G1. pose proof (proj1 (selected_nil _ _ _ M) E2) as G2.
    intros j. split; intros Hj.
    + apply (G1 j); [|exact Hj]. destruct Hj as (k & c & v & Hj & _). apply in_seq. split; [lia|]. cbn. apply nth_error_Some. congruence.
    + apply (G2 j); [|exact Hj]. destruct Hj as (k & c & Hj & _). apply in_seq. split; [lia|]. cbn. apply nth_error_Some. congruence.
  - intros G. rewrite (proj2 (selected_nil _ _ _ B)) by (intros x _; apply G). rewrite (proj2 (selected_nil _ _ _ M)) by (intros x _; apply G). reflexivity.
Qed.

(** ** header matching *)
Lemma columndict_get (cols : list (tcol V)) name :
  match dget str_eqb (dset_all str_eqb [] (map (fun c => (tc_header c, c)) cols)) name with
  | Some c => In c cols /\ tc_header c = name
  | None => ~ In name (map tc_header cols)
  end.
Proof.
  rewrite (dget_dset_all _ str_eqb_eq). cbn [dget].
  assert (G : forall l, match dget str_eqb (map (fun c => (tc_header c, c)) l) name with
            | Some c => In c l /\ tc_header c = name | None => ~ In name (map tc_header l) end).
  { induction l as [|c l IH]; cbn; [intros []|]. destruct (str_eqb name (tc_header c)) eqn:E.
    - apply str_eqb_eq in E. auto.
    - destruct (dget str_eqb (map (fun c0 => (tc_header c0, c0)) l) name) as [c0|]; [tauto|].
      intros [H|H]; [|exact (IH H)]. rewrite <- H, (proj2 (str_eqb_eq _ _) eq_refl) in E. discriminate. }
  specialize (G (rev cols)). rewrite map_rev in G.
  destruct (dget str_eqb (rev (map (fun c => (tc_header c, c)) cols)) name) as [c|].
  - destruct G as [G1 G2]. split; [apply in_rev; exact G1|exact G2].
  - intros H. apply G. rewrite map_rev, <- in_rev. exact H.
Qed.
Lemma find_by_title_spec (cols : list (tcol V)) name r : find_by_title cols name = Ok r ->
  match r with
  | Some c => In c cols /\ (first_title (tc_col c) = Ok (Some name) \/ de_propertyUrl (c_desc (tc_col c)) = Some name)
  | None => forall c, In c cols -> first_title (tc_col c) <> Ok (Some name) /\ de_propertyUrl (c_desc (tc_col c)) <> Some name
  end.
Proof.
  induction cols as [|c cols IH]; cbn [find_by_title]; intros H.
  - injection H as <-. intros c [].
  - destruct (first_title (tc_col c)) as [t|] eqn:Et; [|discriminate]. cbn [bind] in H.
    destruct (match t with Some t0 => str_eqb t0 name | None => false end) eqn:E1.
    { injection H as <-. destruct t as [t|]; [|discriminate]. apply str_eqb_eq in E1. subst t. split; [left; reflexivity|left; exact Et]. }
    destruct (match de_propertyUrl (c_desc (tc_col c)) with Some u => str_eqb u name | None => false end) eqn:E2.
    { injection H as <-. destruct (de_propertyUrl (c_desc (tc_col c))) as [u|] eqn:Eu; [|discriminate]. apply str_eqb_eq in E2. subst u.
      split; [left; reflexivity|right; first [exact Eu|reflexivity]]. }
    apply IH in H. destruct r as [c0|].
    + destruct H as [H1 H2]. split; [right; exact H1|exact H2].
    + intros c0 [<-|Hc0]; [|apply H; exact Hc0]. split.
      * rewrite Et. intros X. injection X as ->. rewrite (proj2 (str_eqb_eq _ _) eq_refl) in E1. discriminate.
      * intros X. rewrite X, (proj2 (str_eqb_eq _ _) eq_refl) in E2. discriminate.
Qed.
Lemma find_by_title_total (cols : list (tcol V)) name : titles_readable cols -> exists r, find_by_title cols name = Ok r.
Proof.
  induction cols as [|c cols IH]; intros H; cbn; [eauto|].
  destruct (H c (or_introl eq_refl)) as [t ->]. cbn [bind].
  destruct (match t with Some t0 => str_eqb t0 name | None => false end); [eauto|].
  destruct (match de_propertyUrl (c_desc (tc_col c)) with Some u => str_eqb u name | None => false end); [eauto|].
  apply IH. intros c0 H0. apply H. right. exact H0.
Qed.
Lemma get_column_spec (cols : list (tcol V)) name r : get_column cols name = Ok r ->
  match r with
  | Some c => In c cols /\ refers c name /\ (In name (map tc_header cols) -> tc_header c = name)
  | None => forall c, In c cols -> ~ refers c name
  end.
Proof.
  unfold get_column. pose proof (columndict_get cols name) as G.
  destruct (dget str_eqb (dset_all str_eqb [] (map (fun c => (tc_header c, c)) cols)) name) as [c|].
  - intros H. injection H as <-. destruct G as [G1 G2]. split; [exact G1|]. split; [left; symmetry; exact G2|auto].
  - intros H. apply find_by_title_spec in H. destruct r as [c|].
    + destruct H as [H1 H2]. split; [exact H1|]. split; [right; exact H2|]. intros X. contradiction.
    + intros c Hc Hr. destruct (H c Hc) as [Ha Hb]. destruct Hr as [X|[X|X]]; [apply G; rewrite X; apply in_map; exact Hc|exact (Ha X)|exact (Hb X)].
Qed.
Lemma get_column_total (cols : list (tcol V)) name : titles_readable cols -> exists r, get_column cols name = Ok r.
Proof.
  intros H. unfold get_column. destruct (dget _ _ _); [eauto|]. apply find_by_title_total. exact H.
Qed.

Lemma regular_firstn (cols : list (tcol V)) : regular_first cols -> exists n, regular cols = firstn n cols /\ forall c, In c (skipn n cols) -> tc_virtual c = true.
Proof.
  intros (n & H1 & H2). exists n. split; [|exact H2]. unfold regular. rewrite <- (firstn_skipn n cols) at 1. rewrite filter_app.
  assert (A : filter (fun c => negb (tc_virtual c)) (firstn n cols) = firstn n cols).
  { revert H1. generalize (firstn n cols). induction l as [|c l IH]; intros H; [reflexivity|]. cbn. rewrite (H c (or_introl eq_refl)). cbn. f_equal.
    apply IH. intros x Hx. apply H. right. exact Hx. }
  assert (B : filter (fun c => negb (tc_virtual c)) (skipn n cols) = []).
  { revert H2. generalize (skipn n cols). induction l as [|c l IH]; intros H; [reflexivity|]. cbn. rewrite (H c (or_introl eq_refl)). cbn.
    apply IH. intros x Hx. apply H. right. exact Hx. }
  rewrite A, B, app_nil_r. reflexivity.
Qed.
Lemma combine_map_firstn {A B C} (f : A -> B) (g : A -> C) n l : combine (map f (firstn n l)) (map g l) = map (fun a => (f a, g a)) (firstn n l).
Proof. revert n; induction l as [|a l IH]; intros [|n]; cbn; [reflexivity..|]. rewrite IH. reflexivity. Qed.
Lemma own_header_cols (cols : list (tcol V)) : regular_first cols ->
  combine (colnames cols) (map Some cols) = map (fun c => (tc_header c, Some c)) (regular cols).
Proof.
  intros H. unfold colnames.
  destruct (regular_firstn cols) as (m & E & _); [assumption|]. rewrite E. apply combine_map_firstn.
Qed.
Lemma nodup_header_eq (cols : list (tcol V)) c c' : distinct_headers cols -> In c cols -> In c' cols -> tc_header c = tc_header c' -> c = c'.
Proof.
  unfold distinct_headers. induction cols as [|a cols IH]; intros Hn Hc Hc' E; [destruct Hc|].
  cbn in Hn. apply NoDup_cons_iff in Hn. destruct Hn as [Ha Hn]. destruct Hc as [<-|Hc], Hc' as [<-|Hc']; auto.
  - exfalso. apply Ha. rewrite E. apply in_map. exact Hc'.
  - exfalso. apply Ha. rewrite <- E. apply in_map. exact Hc.
Qed.
Lemma header_cols_strict (cols : list (tcol V)) hdr : regular_first cols -> titles_readable cols ->
  exists hc, header_cols true cols hdr = Ok hc /\ matched cols hdr hc.
Proof.
  intros Hr Ht. unfold header_cols. destruct (list_eq_dec str_eq_dec hdr (colnames cols)) as [->|Hne]; cbn [orb negb andb].
  - rewrite (own_header_cols cols Hr). eexists. split; [reflexivity|]. split; [rewrite map_map; reflexivity|]. split.
    + intros h c Hin. apply in_map_iff in Hin. destruct Hin as (c0 & E & Hin). injection E as <- ->.
      unfold regular in Hin. apply filter_In in Hin. destruct Hin as [Hin _].
      split; [exact Hin|]. split; [left; reflexivity|reflexivity].
    + intros h Hin. apply in_map_iff in Hin. destruct Hin as (c0 & E & _). discriminate.
  - rewrite andb_false_r. clear Hne. induction hdr as [|h hdr IH]; cbn [mapM].
    + eexists. split; [reflexivity|]. repeat split; intros; contradiction.
    + destruct (get_column_total cols h Ht) as [r Hg]. rewrite Hg. cbn [bind]. destruct IH as (hc & -> & M1 & M2 & M3). cbn [bind].
      eexists. split; [reflexivity|]. pose proof (get_column_spec _ _ _ Hg) as G. split; [cbn; rewrite M1; reflexivity|]. split.
      * intros h0 c [E|Hin]; [|apply M2; exact Hin]. injection E as <- ->. exact G.
      * intros h0 [E|Hin]; [|apply M3; exact Hin]. injection E as <- ->. exact G.
Qed.
Lemma missing_required_iff (cols : list (tcol V)) hc : missing_required cols hc = false <-> required_present cols hc.
Proof.
  unfold missing_required, required_present. split.
  - intros H c Hc Hr. assert (E : str_mem (tc_header c) (present_headers hc) = true).
    { destruct (str_mem (tc_header c) (present_headers hc)) eqn:E; [reflexivity|]. exfalso.
      assert (X : existsb (fun c0 => tc_required c0 && negb (str_mem (tc_header c0) (present_headers hc))) cols = true).
      { apply existsb_exists. exists c. split; [exact Hc|]. rewrite Hr, E. reflexivity. }
      congruence. }
    apply str_mem_In in E. unfold present_headers in E. apply in_flat_map in E. destruct E as ([h [c'|]] & Hin & E); [|destruct E].
    destruct E as [E|[]]. exists h, c'. auto.
  - intros H. destruct (existsb _ cols) eqn:E; [|reflexivity]. exfalso. apply existsb_exists in E. destruct E as (c & Hc & E).
    apply andb_true_iff in E. destruct E as [Er E]. destruct (H c Hc Er) as (h & c' & Hin & Hh).
    assert (X : str_mem (tc_header c) (present_headers hc) = true).
    { apply str_mem_In. apply in_flat_map. exists (h, Some c'). split; [exact Hin|left; exact Hh]. }
    rewrite X in E. discriminate.
Qed.
End P.
