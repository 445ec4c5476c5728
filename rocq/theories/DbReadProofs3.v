(** What is in the database after a successful write (C39, C40). *)
From Coq Require Import QArith Permutation.
From Verif Require Import PyStr Dsv DsvProofs4 Dec Dates Datatype Column Group Sql Db DbSql DbSqlSpec SqlProofs DbSqlProofs DbSqlProofs2
  Sqlite SqliteProofs DbWrite DbWriteSpec DbWriteProofs DbWriteProofs2 DbWriteProofs3 DbWriteProofs4 DbWriteProofs5 DbWriteProofs6 DbReadProofs DbReadProofs2.
Open Scope N_scope.

Lemma nodup_map_inj {A B} (f : A -> B) l a b : NoDup (map f l) -> In a l -> In b l -> f a = f b -> a = b.
Proof.
  induction l as [|x l IH]; intros N Ha Hb E; [destruct Ha|]. cbn [map] in N. apply NoDup_cons_iff in N. destruct N as [N1 N2].
  destruct Ha as [->|Ha], Hb as [->|Hb]; [reflexivity| | |apply IH; assumption].
  - exfalso. apply N1. rewrite E. apply in_map, Hb.
  - exfalso. apply N1. rewrite <- E. apply in_map, Ha.
Qed.
Lemma dget_In {V} (d : list (pystr * V)) k v : NoDup (map fst d) -> In (k, v) d -> dget str_eqb d k = Some v.
Proof.
  induction d as [|[k' v'] d IH]; intros N H; [destruct H|]. cbn [map fst] in N. apply NoDup_cons_iff in N. destruct N as [N1 N2]. cbn [dget].
  destruct H as [H|H]; [injection H as -> ->; rewrite str_eqb_refl; reflexivity|].
  destruct (str_eqb k k') eqn:E; [|apply IH; assumption]. apply str_eqb_eq in E. subst k'. exfalso. apply N1. apply (in_map fst) in H. exact H.
Qed.
Lemma dget_has {V} (d : list (pystr * V)) k v : dget str_eqb d k = Some v -> In (k, v) d.
Proof.
  induction d as [|[k' v'] d IH]; intros H; [discriminate H|]. cbn [dget] in H. destruct (str_eqb k k') eqn:E.
  - apply str_eqb_eq in E. injection H as ->. subst. left. reflexivity.
  - right. apply IH, H.
Qed.

Section Db.
Variable P : py_fns.
Variable St : store_fns.
Variable tr : translator.
Variable skip : bool.
Variable tables : list tablespec.
Variable items : list (pystr * list drow).
Hypothesis Ht : tables_ok tr tables.
(** what C39 and C40 suppose of the data: nothing is written to association tables directly *)
Hypothesis Hrows : forall s, In s tables -> rows_ok P s (data items s).
Hypothesis Hlists : forall s, In s tables -> lists_ok tr s (data items s).
Hypothesis Hdirect : only_tables tables items.

Lemma tables_nodup : NoDup (map (tkey tr) tables).
Proof. exact (tk_names tr tables Ht). Qed.
Lemma tkey_inj s u : In s tables -> In u tables -> tkey tr s = tkey tr u -> s = u.
Proof. apply nodup_map_inj, tables_nodup. Qed.
Lemma assoc_same s k a s' k' a' : In s tables -> In s' tables -> In (k, a) (ts_m2m s) -> In (k', a') (ts_m2m s') ->
  ascii_lower (tr (as_name a) None) = ascii_lower (tr (as_name a') None) -> association_table a = association_table a' /\ s = s'.
Proof.
  intros Is Is' Ia Ia' E. destruct (tk_assoc tr tables Ht s k a Is Ia) as [T1 A1]. destruct (tk_assoc tr tables Ht s' k' a' Is' Ia') as [T2 A2].
  assert (X : association_table a = association_table a') by (apply tkey_inj; [exact T1|exact T2|exact E]). split; [exact X|].
  apply tkey_inj; [exact Is|exact Is'|]. unfold tkey. rewrite <- A1, <- A2.
  assert (Y : as_a a = as_a a') by (apply (f_equal (fun u => match ts_fks u with (_, r, _) :: _ => r | [] => [] end)) in X; exact X). rewrite Y. reflexivity.
Qed.
Lemma atkey_of a : atkey a = (ts_name (association_table a), map cs_name (ts_cols (association_table a))).
Proof. reflexivity. Qed.

(** the primary key of a row with list-valued foreign keys *)
Definition idof (s : tablespec) (r : drow) : pystr :=
  match ts_pk s with [p] => match dget str_eqb r p with Some (POne (VStr t)) => t | _ => [] end | _ => [] end.
Lemma row_pk_id s r k a : In s tables -> In r (data items s) -> In (k, a) (ts_m2m s) -> row_pk s r = Ok (POne (VStr (idof s r))).
Proof.
  intros Is Ir Ia. destruct (lk_pk _ _ _ (Hlists s Is)) as [E|(c & Ic & Ep & _ & _ & Hc)]; [rewrite E in Ia; destruct Ia|].
  destruct (Hc r Ir) as [t Et]. unfold row_pk, idof. rewrite Ep, Et. reflexivity.
Qed.
Definition texts_of (v : pyval value) : list pystr :=
  match v with PList l => flat_map (fun o => match o with Some (VStr t) => [t] | _ => [] end) l | _ => [] end.
Lemma listed_texts r k : listed r k = texts_of (value_or_none r k).
Proof. reflexivity. Qed.
Lemma texts_of_map ts : texts_of (PList (map (fun t => Some (VStr t)) ts)) = ts.
Proof. cbn. induction ts as [|t ts IH]; [reflexivity|]. cbn [map flat_map app]. rewrite IH. reflexivity. Qed.
Lemma row_nodup s r : In s tables -> In r (data items s) -> NoDup (map fst r).
Proof. intros Is Ir. destruct (rk_keys _ _ _ (Hrows s Is)) as (ks & N & K). rewrite (K r Ir). exact N. Qed.
Lemma contrib_texts s r k v a : In s tables -> In r (data items s) -> In (k, v) r -> In (k, a) (ts_m2m s) ->
  contrib s (POne (VStr (idof s r))) (k, v) = map (fun t => (atkey a, texts [idof s r; t; k])) (texts_of v).
Proof.
  intros Is Ir Iv Ia. unfold contrib. cbn [fst snd]. rewrite (dget_In (ts_m2m s) k a (proj1 (lk_columns _ _ _ (Hlists s Is))) Ia).
  assert (V : value_or_none r k = v) by (unfold value_or_none; rewrite (dget_In r k v (row_nodup s r Is Ir) Iv); reflexivity).
  destruct (lk_lists _ _ _ (Hlists s Is) r k a Ir Ia) as [E|(ts & E & _)]; rewrite V in E; clear V; subst v.
  - reflexivity.
  - rewrite texts_of_map. cbn [ref_items]. rewrite map_map. reflexivity.
Qed.
Lemma contrib_In s r x : In s tables -> In r (data items s) -> In x (contrib_row s r) ->
  exists k a t, In (k, a) (ts_m2m s) /\ fst x = atkey a /\ snd x = texts [idof s r; t; k].
Proof.
  intros Is Ir H. unfold contrib_row in H. destruct (row_pk s r) as [pk|e] eqn:Ep; [|destruct H]. apply in_flat_map in H. destruct H as ([k v] & Iv & H).
  destruct (dget str_eqb (ts_m2m s) k) as [a|] eqn:Em; [|unfold contrib in H; cbn [fst] in H; rewrite Em in H; destruct H].
  apply dget_has in Em. rewrite (row_pk_id s r k a Is Ir Em) in Ep. apply Ok_inj in Ep. subst pk.
  rewrite (contrib_texts s r k v a Is Ir Iv Em) in H. apply in_map_iff in H. destruct H as (t & <- & _). exists k, a, t. auto.
Qed.

(** *** the rows of an association table with a context *)
Definition all_refs_written : list ((pystr * list pystr) * list bval) := flat_map (fun s => flat_map (contrib_row s) (data items s)) tables.
Definition context_is (k : pystr) (x : row) : bool := match nth 2 x SNull with SText t => str_eqb t k | _ => false end.
Definition picked (a : assoc) (k : pystr) (l : list ((pystr * list pystr) * list bval)) : list row := filter (context_is k) (map stexts (of_key (atkey a) l)).
Lemma picked_app a k l m : picked a k (l ++ m) = picked a k l ++ picked a k m.
Proof. unfold picked, of_key. rewrite filter_app, !map_app, filter_app. reflexivity. Qed.
Lemma picked_flat {A} a k (g : A -> list ((pystr * list pystr) * list bval)) l : picked a k (flat_map g l) = flat_map (fun x => picked a k (g x)) l.
Proof. induction l as [|x l IH]; [reflexivity|]. cbn [flat_map]. rewrite picked_app, IH. reflexivity. Qed.
Lemma picked_none a k l : (forall x, In x l -> atkey_eqb (atkey a) (fst x) = false \/ context_is k (stexts (snd x)) = false) -> picked a k l = [].
Proof.
  intros H. induction l as [|x l IH]; [reflexivity|]. change (x :: l) with ([x] ++ l). rewrite picked_app, IH by (intros y Hy; apply H; right; exact Hy).
  rewrite app_nil_r. unfold picked, of_key. cbn [filter map]. destruct (H x (or_introl eq_refl)) as [E|E].
  - rewrite E. reflexivity.
  - destruct (atkey_eqb (atkey a) (fst x)); [|reflexivity]. cbn [map filter]. rewrite E. reflexivity.
Qed.
Lemma picked_all a k l : (forall x, In x l -> atkey_eqb (atkey a) (fst x) = true /\ context_is k (stexts (snd x)) = true) -> picked a k l = map (fun x => stexts (snd x)) l.
Proof.
  intros H. induction l as [|x l IH]; [reflexivity|]. change (x :: l) with ([x] ++ l). rewrite picked_app, IH by (intros y Hy; apply H; right; exact Hy).
  rewrite map_app. f_equal. unfold picked, of_key. cbn [filter map]. destruct (H x (or_introl eq_refl)) as [E1 E2]. rewrite E1. cbn [map filter]. rewrite E2. reflexivity.
Qed.
Definition ref_rows (s : tablespec) (k : pystr) (r : drow) : list row := map (fun t => [SText (idof s r); SText t; SText k]) (listed r k).
Lemma picked_row s r k a : In s tables -> In r (data items s) -> In (k, a) (ts_m2m s) -> picked a k (contrib_row s r) = ref_rows s k r.
Proof.
  intros Is Ir Ia. unfold contrib_row. rewrite (row_pk_id s r k a Is Ir Ia). rewrite picked_flat.
  assert (X : forall r', incl r' r -> NoDup (map fst r') ->
    flat_map (fun x => picked a k (contrib s (POne (VStr (idof s r))) x)) r' =
    match dget str_eqb r' k with Some v => map (fun t => [SText (idof s r); SText t; SText k]) (texts_of v) | None => [] end).
  { induction r' as [|[k' v'] r' IH]; intros I N; [reflexivity|]. cbn [map fst] in N. apply NoDup_cons_iff in N. destruct N as [N1 N2].
    cbn [flat_map dget]. rewrite IH; [|intros y Hy; apply I; right; exact Hy|exact N2].
    assert (Iv : In (k', v') r) by (apply I; left; reflexivity).
    destruct (str_eqb k k') eqn:E.
    - apply str_eqb_eq in E. subst k'. rewrite (contrib_texts s r k v' a Is Ir Iv Ia).
      assert (Y : dget str_eqb r' k = None).
      { destruct (dget str_eqb r' k) as [w|] eqn:F; [|reflexivity]. exfalso. apply dget_has in F. apply N1. apply (in_map fst) in F. exact F. }
      rewrite Y, app_nil_r. rewrite picked_all.
      + rewrite map_map. reflexivity.
      + intros x Hx. apply in_map_iff in Hx. destruct Hx as (t & <- & _). cbn [fst snd]. split; [apply atkey_eqb_ok; reflexivity|].
        unfold context_is. cbn. apply str_eqb_refl.
    - rewrite picked_none; [reflexivity|]. intros x Hx. right.
      destruct (dget str_eqb (ts_m2m s) k') as [a'|] eqn:Em; [|unfold contrib in Hx; cbn [fst] in Hx; rewrite Em in Hx; destruct Hx].
      apply dget_has in Em. rewrite (contrib_texts s r k' v' a' Is Ir Iv Em) in Hx. apply in_map_iff in Hx. destruct Hx as (t & <- & _). cbn [snd].
      unfold context_is. cbn. apply str_eqb_neq. apply str_eqb_neq in E. congruence. }
  rewrite X; [|intros y Hy; exact Hy|apply (row_nodup s r Is Ir)].
  unfold ref_rows. rewrite listed_texts. unfold value_or_none. destruct (dget str_eqb r k); reflexivity.
Qed.
Lemma flat_map_nil {A B} (g : A -> list B) l : (forall x, In x l -> g x = []) -> flat_map g l = [].
Proof. induction l as [|x l IH]; intros H; [reflexivity|]. cbn [flat_map]. rewrite (H x (or_introl eq_refl)). apply IH. intros y Hy. apply H. right. exact Hy. Qed.
Lemma flat_map_ext_in {A B} (g h : A -> list B) l : (forall x, In x l -> g x = h x) -> flat_map g l = flat_map h l.
Proof. induction l as [|x l IH]; intros H; [reflexivity|]. cbn [flat_map]. rewrite (H x (or_introl eq_refl)), IH; [reflexivity|]. intros y Hy. apply H. right. exact Hy. Qed.
Lemma picked_written s k a : In s tables -> In (k, a) (ts_m2m s) -> picked a k all_refs_written = flat_map (ref_rows s k) (data items s).
Proof.
  intros Is Ia. unfold all_refs_written. rewrite picked_flat.
  assert (G : forall ts, incl ts tables -> NoDup (map (tkey tr) ts) ->
    flat_map (fun x => picked a k (flat_map (contrib_row x) (data items x))) ts = if in_dec str_eq_dec (tkey tr s) (map (tkey tr) ts) then flat_map (ref_rows s k) (data items s) else []).
  { induction ts as [|u ts IH]; intros I N; [reflexivity|]. cbn [map] in N. apply NoDup_cons_iff in N. destruct N as [N1 N2].
    cbn [flat_map]. rewrite IH; [|intros y Hy; apply I; right; exact Hy|exact N2]. assert (Iu : In u tables) by (apply I; left; reflexivity).
    destruct (str_eq_dec (tkey tr u) (tkey tr s)) as [E|E].
    - apply (tkey_inj u s Iu Is) in E. subst u. destruct (in_dec str_eq_dec (tkey tr s) (map (tkey tr) ts)) as [X|_]; [contradiction|].
      destruct (in_dec str_eq_dec (tkey tr s) (map (tkey tr) (s :: ts))) as [_|X]; [|exfalso; apply X; left; reflexivity]. rewrite app_nil_r, picked_flat.
      apply flat_map_ext_in. intros r Ir. apply picked_row; assumption.
    - assert (Z : picked a k (flat_map (contrib_row u) (data items u)) = []).
      { rewrite picked_flat. apply flat_map_nil. intros r Ir. apply picked_none. intros x Hx. left.
        destruct (contrib_In u r x Iu Ir Hx) as (k' & a' & t & Ia' & Ex & _). rewrite Ex. destruct (atkey_eqb (atkey a) (atkey a')) eqn:F; [|reflexivity].
        apply atkey_eqb_ok in F. exfalso. apply E. unfold atkey in F. injection F as F _ _.
        destruct (assoc_same u k' a' s k a Iu Is Ia' Ia) as [_ ->]; [rewrite F; reflexivity|reflexivity]. }
      rewrite Z. cbn [app]. destruct (in_dec str_eq_dec (tkey tr s) (map (tkey tr) ts)) as [X|X], (in_dec str_eq_dec (tkey tr s) (map (tkey tr) (u :: ts))) as [Y|Y]; try reflexivity.
      + exfalso. apply Y. right. exact X.
      + exfalso. destruct Y as [Y|Y]; contradiction. }
  rewrite G; [|intros x Hx; exact Hx|apply tables_nodup]. destruct (in_dec str_eq_dec (tkey tr s) (map (tkey tr) tables)) as [_|X]; [reflexivity|].
  exfalso. apply X, in_map, Is.
Qed.

(** *** the whole *)
Record wrote (D : db) (h : pystr -> list row) : Prop := {
  wr_tables : D = tabs tr h tables;
  wr_distinct : forall s, In s tables -> cols_distinct tr s;
  wr_rows : forall s, In s tables -> (forall s' k a, In s' tables -> In (k, a) (ts_m2m s') -> as_name a <> ts_name s) ->
    Forall2 (row_stored P St s) (data items s) (h (tkey tr s)) /\ added_unique (new_table tr s) (h (tkey tr s));
  wr_refs : forall s k a, In s tables -> In (k, a) (ts_m2m s) ->
    filter (context_is k) (h (tkey tr (association_table a))) = flat_map (ref_rows s k) (data items s) /\
    forall x, In x (h (tkey tr (association_table a))) -> exists i t c, x = [SText i; SText t; SText c];
}.
Lemma fine_all s : In s tables -> cols_distinct tr s -> fine P tr s (data items s).
Proof.
  intros Is D. constructor.
  - apply (tk_sql _ _ Ht), Is.
  - exact D.
  - intros c. apply (tk_types _ _ Ht), Is.
  - intros p. apply (tk_pk _ _ Ht), Is.
  - apply Hrows, Is.
  - intros c Ic. unfold has. destruct (dget str_eqb (ts_m2m s) (cs_name c)) as [a|] eqn:E; [|reflexivity]. apply dget_has in E.
    destruct (proj2 (lk_columns _ _ _ (Hlists s Is)) _ _ E) as (_ & X & _). destruct (X c Ic) as [_ Y]. contradiction Y. reflexivity.
Qed.
Theorem write_contents c' : write_conn P St tr skip tables items new_conn = (c', Ok tt) -> c_work c' = None /\ exists h, wrote (c_disk c') h.
Proof.
  intros W. unfold write_conn in W. destruct (each (fun c s => execute St c (table_sql tr s)) new_conn tables) as [c1 [[]|e]] eqn:E1; [|discriminate W].
  destruct (create_all_ok St tr tables (tk_sql _ _ Ht) [] new_conn c1 (fun _ => []) eq_refl eq_refl (fun _ => eq_refl) tables_nodup E1) as (C1 & C2 & C3).
  cbn [app] in C2. rewrite Forall_forall in C3.
  assert (E : commit c1 = c1) by (unfold commit; rewrite C1; reflexivity). rewrite E in W.
  match type of W with context [write_tables ?a ?b ?c ?d ?e ?f ?g] => change (write_tables a b c d e f g) with (write_tables P St tr skip items (c1, [] : refs) tables) in W end.
  destruct (write_tables P St tr skip items (c1, [] : refs) tables) as [[c2 R] [[]|e]] eqn:E2; [|discriminate W].
  destruct (each _ c2 R) as [c3 [[]|e]] eqn:E3; [|discriminate W]. injection W as <-.
  assert (Cur : current c1 = tabs tr (fun _ => []) tables) by (unfold current; rewrite C1; exact C2).
  destruct (write_tables_ok P St tr skip items tables tables tables_nodup) with (3 := Cur) (4 := E2) as (W1 & g & W2 & _ & W4).
  { intros s Is. split; [exact Is|]. apply fine_all; [exact Is|apply C3, Is]. }
  { apply tables_nodup. }
  fold all_refs_written in W1. destruct (add_all_spec all_refs_written [] (NoDup_nil _)) as (A1 & A2 & A3). rewrite <- W1 in A1, A2, A3.
  assert (Keys : forall k, In k (map fst R) -> exists s q a, In s tables /\ In (q, a) (ts_m2m s) /\ k = atkey a).
  { intros k Hk. destruct (A3 k Hk) as [[]|H]. apply in_map_iff in H. destruct H as (x & <- & Hx). unfold all_refs_written in Hx.
    apply in_flat_map in Hx. destruct Hx as (s & Is & Hx). apply in_flat_map in Hx. destruct Hx as (r & Ir & Hx).
    destruct (contrib_In s r x Is Ir Hx) as (q & a & t & Ia & Ex & _). exists s, q, a. auto. }
  assert (Vals : forall k b, In b (of_key k all_refs_written) -> exists i t c, b = texts [i; t; c]).
  { intros k b Hb. unfold of_key in Hb. apply in_map_iff in Hb. destruct Hb as (x & <- & Hx). apply filter_In in Hx. destruct Hx as [Hx _]. unfold all_refs_written in Hx.
    apply in_flat_map in Hx. destruct Hx as (s & Is & Hx). apply in_flat_map in Hx. destruct Hx as (r & Ir & Hx).
    destruct (contrib_In s r x Is Ir Hx) as (q & a & t & Ia & _ & Ex). exists (idof s r), t, q. exact Ex. }
  assert (Entries : forall k l, In (k, l) R -> l = of_key k all_refs_written).
  { intros k l Hk. specialize (A2 k). cbn in A2. rewrite <- A2. unfold lookup. clear -A1 Hk. induction R as [|[k' l'] R IH]; [destruct Hk|]. cbn [map fst] in A1.
    apply NoDup_cons_iff in A1. destruct A1 as [N1 N2]. cbn [dget]. destruct Hk as [Hk|Hk].
    - injection Hk as -> ->. rewrite (proj2 (atkey_eqb_ok k k) eq_refl). reflexivity.
    - destruct (atkey_eqb k k') eqn:F; [|apply IH; assumption]. apply atkey_eqb_ok in F. subst k'. exfalso. apply N1. apply (in_map fst) in Hk. exact Hk. }
  destruct (each_refs_ok P St tr tables R tables_nodup) with (3 := W2) (4 := E3) as (h & H1 & H2).
  { intros s Is. split; [apply (tk_sql _ _ Ht), Is|apply C3, Is]. }
  { intros k l Hk. destruct (Keys k (in_map fst _ _ Hk)) as (s & q & a & Is & Ia & ->). exists a. split; [reflexivity|].
    split; [apply (tk_assoc _ _ Ht s q a Is Ia)|]. intros b Hb. apply (Vals (atkey a)). rewrite <- (Entries _ _ Hk). exact Hb. }
  assert (Com : c_work (commit c3) = None /\ c_disk (commit c3) = current c3).
  { unfold commit, current. destruct (c_work c3) as [D|] eqn:Ew; [split; reflexivity|split; [exact Ew|reflexivity]]. }
  destruct Com as [Com1 Com2]. split; [exact Com1|]. exists h. rewrite Com2. constructor.
  - exact H1.
  - exact C3.
  - intros s Is Hn. destruct (W4 s Is) as (new & N1 & N2 & N3). cbn [app] in N1.
    assert (X : h (tkey tr s) = new).
    { rewrite H2, N1, flat_map_nil; [apply app_nil_r|]. intros [k l] Hk. cbn [fst snd]. destruct (Keys k (in_map fst _ _ Hk)) as (s' & q & a & Is' & Ia & ->).
      destruct (str_eqb (tkey tr s) (ascii_lower (tr (fst (atkey a)) None))) eqn:F; [|reflexivity]. apply str_eqb_eq in F. exfalso.
      apply (Hn s' q a Is' Ia). destruct (tk_assoc _ _ Ht s' q a Is' Ia) as [T _]. change (as_name a) with (ts_name (association_table a)).
      f_equal. apply tkey_inj; [exact T|exact Is|]. symmetry. exact F. }
    rewrite X. split; [exact N2|exact N3].
  - intros s k a Is Ia. destruct (tk_assoc _ _ Ht s k a Is Ia) as [T _]. destruct (W4 _ T) as (new & N1 & N2 & _). cbn [app] in N1.
    assert (Nw : new = []).
    { unfold data in N2. change (ts_name (association_table a)) with (as_name a) in N2. rewrite (Hdirect s k a Is Ia) in N2. inversion N2. reflexivity. }
    assert (X : h (tkey tr (association_table a)) = map stexts (of_key (atkey a) all_refs_written)).
    { rewrite H2, N1, Nw. cbn [app]. specialize (A2 (atkey a)). cbn in A2. rewrite <- A2.
      apply (flat_pick R (fun κ => str_eqb (tkey tr (association_table a)) (ascii_lower (tr (fst κ) None))) stexts (atkey a) A1).
      intros q Hq. destruct (Keys q Hq) as (s' & q' & a' & Is' & Ia' & ->). cbn [fst atkey]. unfold tkey. cbn [ts_name association_table].
      destruct (atkey_eqb (atkey a) (atkey a')) eqn:F.
      - apply atkey_eqb_ok in F. unfold atkey in F. injection F as F _ _. rewrite F. apply str_eqb_refl.
      - apply str_eqb_neq. intros G. destruct (assoc_same s k a s' q' a' Is Is' Ia Ia' G) as [Y _].
        rewrite (atkey_of a), (atkey_of a'), Y, (proj2 (atkey_eqb_ok _ _) eq_refl) in F. discriminate F. }
    split.
    + rewrite X. apply (picked_written s k a Is Ia).
    + intros x Hx. rewrite X in Hx. apply in_map_iff in Hx. destruct Hx as (b & <- & Hb). destruct (Vals _ _ Hb) as (i & t & c & ->).
      exists i, t, c. apply stexts_texts.
Qed.
End Db.
