(** Proofs for C33: the statements. *)
From Verif Require Import PyStr Dsv DsvSpec DsvProofs4 Column Schema Table TableSpec TableProofs TableProofs2 TableProofs5 TableProofs6 Group GroupSpec GroupProofs1 GroupProofs2.

Section P.
Context {V : Type} (veq : V -> V -> bool) (Heq : equivalence veq).
Notation gtable := (@gtable V).
Notation fk4 := (@fk4 V).
Notation keyval := (@keyval V).

(** ** strict: nulls *)
Definition nullcheck (tf : gtable * fkey) : res unit :=
  let o := g_iter (fst tf) false in
  if existsb (fun lr => null_fk (fk_cols (snd tf)) (snd lr)) (io_rows o) then Err ValueError
  else match io_end o with Some e => Err e | None => Ok tt end.
Definition allpairs (ts : list gtable) : list (gtable * fkey) := flat_map (fun t => map (fun fk => (t, fk)) (g_fkeys t)) ts.
Lemma strict_nulls_eq (ts : list gtable) : strict_nulls ts = (_ <- mapM nullcheck (allpairs ts) ;; Ok tt).
Proof. reflexivity. Qed.
Lemma allpairs_in ts t fk : In (t, fk) (allpairs ts) <-> In t ts /\ In fk (g_fkeys t).
Proof.
  unfold allpairs. rewrite in_flat_map. split.
  - intros (u & Hu & H). apply in_map_iff in H. destruct H as (f & E & Hf). injection E as <- <-. auto.
  - intros (H1 & H2). exists t. split; [exact H1|]. apply in_map. exact H2.
Qed.
Lemma null_fk_iff fk (d : dict V) : null_fk (fk_cols fk) d = true <-> null_key fk d.
Proof.
  unfold null_fk, null_key. rewrite existsb_exists. split; intros (c & Hc & H); exists c; (split; [exact Hc|]).
  - destruct (dget str_eqb d c) as [[| |]|]; try discriminate; auto.
  - destruct H as [->| ->]; reflexivity.
Qed.
Lemma nullcheck_ok t fk : nullcheck (t, fk) = Ok tt <-> io_end (g_iter t false) = None /\ forall line d, In (line, d) (rows_of false t) -> ~ null_key fk d.
Proof.
  unfold nullcheck, rows_of. cbn [fst snd]. destruct (existsb _ _) eqn:E.
  - split; [discriminate|]. intros [_ H]. apply existsb_exists in E. destruct E as ([line d] & Hd & Hn). apply null_fk_iff in Hn. exfalso. exact (H line d Hd Hn).
  - split.
    + destruct (io_end (g_iter t false)); [discriminate|]. intros _. split; [reflexivity|]. intros line d Hd Hn. apply null_fk_iff in Hn.
      assert (X : existsb (fun lr : nat * dict V => null_fk (fk_cols fk) (snd lr)) (io_rows (g_iter t false)) = true) by (apply existsb_exists; exists (line, d); auto). congruence.
    + intros [-> _]. reflexivity.
Qed.
Lemma strict_nulls_ok (ts : list gtable) : strict_nulls ts = Ok tt <-> readable_children ts /\ no_nulls ts.
Proof.
  rewrite strict_nulls_eq. transitivity (exists bs, mapM nullcheck (allpairs ts) = Ok bs).
  - destruct (mapM nullcheck (allpairs ts)); cbn; split; eauto; [discriminate|intros [? H]; discriminate].
  - rewrite mapM_unit. unfold readable_children, no_nulls. split.
    + intros H. split.
      * intros t Ht Hf. destruct (g_fkeys t) as [|fk fks] eqn:E; [congruence|]. assert (Hi : In (t, fk) (allpairs ts)) by (apply allpairs_in; rewrite E; cbn; auto).
        apply H in Hi. apply nullcheck_ok in Hi. apply Hi.
      * intros t fk line d Ht Hf. assert (Hi : In (t, fk) (allpairs ts)) by (apply allpairs_in; auto). apply H in Hi. apply nullcheck_ok in Hi. apply Hi.
    + intros [H1 H2] [t fk] Hi. apply allpairs_in in Hi. destruct Hi as [Ht Hf]. apply nullcheck_ok. split; [apply H1; [exact Ht|intros E; rewrite E in Hf; destruct Hf]|].
      intros line d. apply H2; assumption.
Qed.
Lemma mapM_only_err {A B} (f : A -> res B) e l : (forall a e', In a l -> f a = Err e' -> e' = e) -> (exists bs, mapM f l = Ok bs) \/ mapM f l = Err e.
Proof.
  induction l as [|a l IH]; intros H; [left; exists []; reflexivity|]. cbn. destruct (f a) as [b|e'] eqn:E; cbn.
  - destruct IH as [[bs ->]|H0]; [intros x e' Hx; apply H; right; exact Hx|left; exists (b :: bs); reflexivity|right]. rewrite H0. reflexivity.
  - right. f_equal. eapply H; [left; reflexivity|exact E].
Qed.
(** strict: a null in a foreign key column raises ValueError, whether or not there is a log *)
Theorem strict_null_raises log ts : readable_children ts ->
  (exists t fk line d, In t ts /\ In fk (g_fkeys t) /\ In (line, d) (rows_of false t) /\ null_key fk d) ->
  check_referential_integrity veq true log ts = ([], Err ValueError).
Proof.
  intros Hr (t & fk & line & d & Ht & Hf & Hd & Hn). assert (E : strict_nulls ts = Err ValueError).
  { rewrite strict_nulls_eq. destruct (mapM_only_err nullcheck ValueError (allpairs ts)) as [[bs H]|H].
    - intros [t' fk'] e' Hi. apply allpairs_in in Hi. destruct Hi as [Hi Hi']. unfold nullcheck. cbn [fst snd]. destruct (existsb _ _); [congruence|].
      rewrite Hr; [discriminate|exact Hi|]. intros X. rewrite X in Hi'. destruct Hi'.
    - exfalso. apply mapM_Ok_in in H. destruct H as [H _]. destruct (H (t, fk)) as ([] & E & _); [apply allpairs_in; auto|]. apply nullcheck_ok in E. exact (proj2 E line d Hd Hn).
    - rewrite H. reflexivity. }
  unfold check_referential_integrity. rewrite E. reflexivity.
Qed.

(** ** the result, for readable tables *)
Section Main.
Context (strict log : bool) (ts : list gtable).
Hypothesis Hmatch : keys_match ts.
Hypothesis Hread : readable log ts.
Hypothesis Hu : keys_usable log ts.
Hypothesis Hstrict : strict = true -> readable_children ts /\ no_nulls ts.

Lemma len_match child fk target : refers_to ts child fk target -> length (fk_refcols fk) = length (fk_cols fk).
Proof. intros H. apply (proj2 Hmatch) in H. eapply Forall2_length. exact H. Qed.
Lemma main_eq : exists L, foreign_keys ts = Ok L /\
  check_referential_integrity veq strict log ts
  = outcome log (forallb (childb veq log) L) (forallb (gnd veq strict log) L) (flat_map (child_ms veq log) (sort_fks L)).
Proof.
  destruct (proj1 (foreign_keys_ok ts) (proj1 Hmatch)) as [L HL]. exists L. split; [exact HL|]. apply (check_eq veq strict log ts L HL).
  - apply schema_iff. exact Hmatch.
  - destruct strict; [|reflexivity]. apply strict_nulls_ok. apply Hstrict. reflexivity.
  - intros x Hx. apply (foreign_keys_in ts L HL) in Hx. destruct x as [[[target k] child] r]. cbn in Hx. destruct Hx as (fk & Hr & -> & ->).
    exact (fk_ok_of log ts child target fk Hr (len_match _ _ _ Hr) Hu Hread).
Qed.
Lemma childb_iff L : foreign_keys ts = Ok L -> (forallb (childb veq log) L = true <-> all_satisfied veq log ts).
Proof.
  intros HL. rewrite forallb_forall. unfold all_satisfied. split.
  - intros H child fk target Hr line d Hd. specialize (H (target, fk_refcols fk, child, fk_cols fk)). unfold childb in H. rewrite forallb_forall in H.
    assert (Hx : In (target, fk_refcols fk, child, fk_cols fk) L) by (apply (foreign_keys_in ts L HL); cbn; exists fk; auto).
    apply (row_iff veq log ts child target fk Hr (len_match _ _ _ Hr) Hu line d Hd). exact (H Hx (line, d) Hd).
  - intros H x Hx. apply (foreign_keys_in ts L HL) in Hx. destruct x as [[[target k] child] r]. cbn in Hx. destruct Hx as (fk & Hr & -> & ->).
    unfold childb. apply forallb_forall. intros [line d] Hd. cbn [f_key f_ref f_child fst snd] in *. apply (row_iff veq log ts child target fk Hr (len_match _ _ _ Hr) Hu line d Hd).
    apply (H child fk target Hr line d Hd).
Qed.
Lemma childb_not L : foreign_keys ts = Ok L -> (forallb (childb veq log) L = false <-> some_violated veq log ts).
Proof.
  intros HL. split.
  - intros H. assert (G : exists x, In x L /\ childb veq log x = false).
    { clear HL. induction L as [|x L IH]; cbn in H; [discriminate|]. destruct (childb veq log x) eqn:E; [|exists x; split; [left; reflexivity|exact E]].
      destruct IH as (y & Hy & E'); [exact H|]. exists y. split; [right; exact Hy|exact E']. }
    destruct G as (x & Hx & E). apply (foreign_keys_in ts L HL) in Hx. destruct x as [[[target k] child] r]. cbn in Hx. destruct Hx as (fk & Hr & -> & ->).
    unfold childb in E. cbn [f_key f_ref f_child fst snd] in E.
    assert (G : exists lr, In lr (io_rows (g_iter child log)) /\ rowb veq (fk_refcols fk) (fk_cols fk) (seen_for log (target, fk_refcols fk, child, fk_cols fk)) (snd lr) = false).
    { revert E. generalize (io_rows (g_iter child log)). intros l E. induction l as [|lr l IH]; cbn in E; [discriminate|].
      destruct (rowb _ _ _ _ (snd lr)) eqn:E1; [|exists lr; split; [left; reflexivity|exact E1]]. destruct (IH E) as (y & Hy & E'). exists y. split; [right; exact Hy|exact E']. }
    destruct G as ([line d] & Hd & E1). exists child, fk, target, line, d. split; [exact Hr|]. split; [exact Hd|]. intros S.
    apply (row_iff veq log ts child target fk Hr (len_match _ _ _ Hr) Hu line d Hd) in S. cbn in E1. congruence.
  - intros (child & fk & target & line & d & Hr & Hd & Hn). destruct (forallb (childb veq log) L) eqn:E; [|reflexivity]. apply (childb_iff L HL) in E.
    exfalso. apply Hn. apply (E child fk target Hr line d Hd).
Qed.
Lemma gnd_iff L : foreign_keys ts = Ok L -> (forallb (gnd veq strict log) L = true <-> (strict = true -> all_unique veq log ts)).
Proof.
  clear Hstrict Hread. intros HL. rewrite forallb_forall. unfold gnd, all_unique. destruct strict; cbn [andb negb]; [|split; [discriminate|reflexivity]]. split.
  - intros H _ child fk target Hr. specialize (H (target, fk_refcols fk, child, fk_cols fk)).
    assert (Hx : In (target, fk_refcols fk, child, fk_cols fk) L) by (apply (foreign_keys_in ts L HL); cbn; exists fk; auto).
    apply H in Hx. apply negb_true_iff in Hx. exact (proj1 (dup_iff veq Heq log ts child target fk Hr (len_match _ _ _ Hr) Hu) Hx).
  - intros H x Hx. apply negb_true_iff. apply (foreign_keys_in ts L HL) in Hx. destruct x as [[[target k] child] r]. cbn in Hx. destruct Hx as (fk & Hr & -> & ->).
    apply (dup_iff veq Heq log ts child target fk Hr (len_match _ _ _ Hr) Hu). apply (H eq_refl child fk target Hr).
Qed.
Lemma messages_iff L : foreign_keys ts = Ok L -> forall m, In m (flat_map (child_ms veq log) (sort_fks L)) <->
  exists child fk target line d, refers_to ts child fk target /\ In (line, d) (rows_of log child) /\ ~ satisfied veq log target fk d
     /\ m = NotFound (g_name child) line (g_name target).
Proof.
  intros HL m. rewrite in_flat_map. split.
  - intros (x & Hx & Hm). apply (Permutation_in _ (Permutation_sym (sort_perm L))) in Hx.
    apply (foreign_keys_in ts L HL) in Hx. destruct x as [[[target k] child] r]. cbn in Hx. destruct Hx as (fk & Hr & -> & ->).
    unfold child_ms in Hm. cbn [f_key f_ref f_child f_target fst snd] in Hm. apply in_flat_map in Hm. destruct Hm as ([line d] & Hd & Hm). cbn [fst snd] in Hm.
    assert (Em : m = NotFound (g_name child) line (g_name target)) by (eapply (ms_iff veq log child target fk line d); eassumption).
    subst m. exists child, fk, target, line, d. split; [exact Hr|]. split; [exact Hd|]. split; [|reflexivity]. intros S.
    apply (row_iff veq log ts child target fk Hr (len_match _ _ _ Hr) Hu line d Hd) in S. apply ms_nil in Hm. congruence.
  - intros (child & fk & target & line & d & Hr & Hd & Hn & ->). exists (target, fk_refcols fk, child, fk_cols fk). split.
    + apply (Permutation_in _ (sort_perm L)). apply (foreign_keys_in ts L HL); cbn; exists fk; auto.
    + unfold child_ms. cbn [f_key f_ref f_child f_target fst snd]. apply in_flat_map. exists (line, d). split; [exact Hd|]. cbn [fst snd]. apply ms_nil.
      destruct (rowb _ _ _ _ d) eqn:E; [|reflexivity]. exfalso. apply Hn. apply (row_iff veq log ts child target fk Hr (len_match _ _ _ Hr) Hu line d Hd). exact E.
Qed.
End Main.

(** with a log: a verdict and a message for each violating row *)
Theorem integrity_log strict ts : keys_match ts -> readable true ts -> keys_usable true ts -> (strict = true -> readable_children ts /\ no_nulls ts) ->
  exists b ms, check_referential_integrity veq strict true ts = (ms, Ok b)
    /\ (b = true <-> all_satisfied veq true ts /\ (strict = true -> all_unique veq true ts))
    /\ (forall m, In m ms <-> exists child fk target line d, refers_to ts child fk target /\ In (line, d) (rows_of true child)
          /\ ~ satisfied veq true target fk d /\ m = NotFound (g_name child) line (g_name target)).
Proof.
  intros Hm Hr Hu Hs. destruct (main_eq strict true ts Hm Hr Hu Hs) as (L & HL & E). rewrite E. cbn [outcome].
  eexists; eexists. split; [reflexivity|]. split.
  - rewrite andb_true_iff, (childb_iff true ts Hm Hu L HL), (gnd_iff strict true ts Hm Hu L HL). reflexivity.
  - apply (messages_iff true ts Hm Hu L HL).
Qed.
(** without a log: True, False for keys that are not unique, or ValueError *)
Theorem integrity_nolog strict ts : keys_match ts -> readable false ts -> keys_usable false ts -> (strict = true -> readable_children ts /\ no_nulls ts) ->
  (all_satisfied veq false ts -> exists b, check_referential_integrity veq strict false ts = ([], Ok b) /\ (b = true <-> (strict = true -> all_unique veq false ts)))
  /\ (some_violated veq false ts -> check_referential_integrity veq strict false ts = ([], Err ValueError))
  /\ (all_satisfied veq false ts \/ some_violated veq false ts).
Proof.
  intros Hm Hr Hu Hs. destruct (main_eq strict false ts Hm Hr Hu Hs) as (L & HL & E). rewrite E. cbn [outcome]. split; [|split].
  - intros H. apply (childb_iff false ts Hm Hu L HL) in H. rewrite H. eexists. split; [reflexivity|]. apply (gnd_iff strict false ts Hm Hu L HL).
  - intros H. apply (childb_not false ts Hm Hu L HL) in H. rewrite H. reflexivity.
  - destruct (forallb (childb veq false) L) eqn:EL; [left; apply (childb_iff false ts Hm Hu L HL) in EL; exact EL|right; apply (childb_not false ts Hm Hu L HL) in EL; exact EL].
Qed.

(** ** a result is only given for usable keys: True can be trusted *)
Lemma wbind_Ok {A B} (m : wres A) (f : A -> wres B) b : snd (wbind m f) = Ok b <-> exists a, snd m = Ok a /\ snd (f a) = Ok b.
Proof.
  unfold wbind. destruct (snd m) as [a|e]; cbn; split.
  - eauto.
  - intros (a' & H & H'). injection H as <-. exact H'.
  - discriminate.
  - intros (a & H & _). discriminate.
Qed.
Lemma wall_Ok {A} (f : A -> wres bool) l b : snd (wall f l) = Ok b -> forall a, In a l -> exists b', snd (f a) = Ok b'.
Proof.
  revert b. induction l as [|a l IH]; intros b H x Hx; [destruct Hx|]. cbn [wall] in H. apply wbind_Ok in H. destruct H as (b1 & H1 & H).
  apply wbind_Ok in H. destruct H as (b2 & H2 & _). destruct Hx as [<-|Hx]; [eauto|]. eapply IH; eassumption.
Qed.
Lemma get_kv_has ks (d : dict V) k : get_kv ks d = Ok k -> exists vals, has_keys ks d vals /\ k = kv_of vals.
Proof.
  intros H. assert (G : exists vals, mapM (lookup d) ks = Ok vals).
  { destruct ks as [|a [|b ks]]; [discriminate| |].
    - cbn in H. cbn. destruct (lookup d a) as [v|]; [|discriminate]. exists [v]. reflexivity.
    - change (get_kv (a :: b :: ks) d) with (l <- mapM (lookup d) (a :: b :: ks) ;; Ok (KTup l)) in H.
      destruct (mapM (lookup d) (a :: b :: ks)) as [l|]; [eauto|discriminate]. }
  destruct G as [vals G]. exists vals. assert (Hv : has_keys ks d vals).
  { apply mapM_Ok_iff in G. eapply ColumnProofs2.Forall2_impl; [|exact G]. intros a v X. cbn in X. unfold lookup in X. destruct (dget str_eqb d a); congruence. }
  split; [exact Hv|]. rewrite (get_kv_iff ks d vals) in H; [congruence| |exact Hv]. intros ->. discriminate.
Qed.
Lemma hashable_no_lists (vals : list (pyval V)) : kv_hashable (kv_of vals) = true -> no_lists vals.
Proof. intros H. apply hashable_iff. destruct vals as [|v [|]]; cbn in *; auto. rewrite andb_true_r. exact H. Qed.
Lemma see_row_Ok d gs r : see_row veq d gs = Ok r -> map fst (snd r) = map fst gs /\ forall g, In g gs -> exists vals, has_keys (fst g) d vals /\ no_lists vals.
Proof.
  revert r. induction gs as [|[ks seen] gs IH]; intros r H; cbn in H; [injection H as <-; split; [reflexivity|intros g []]|].
  destruct (get_kv ks d) as [k|] eqn:E; [|discriminate]. cbn in H. unfold kv_in in H. destruct (kv_hashable k) eqn:Eh; [|discriminate]. cbn in H.
  destruct (see_row veq d gs) as [r'|] eqn:Er; [|discriminate]. cbn in H. injection H as <-. destruct (IH r' eq_refl) as [H1 H2]. cbn. split; [f_equal; exact H1|].
  intros g [<-|Hg]; [|apply H2; exact Hg]. cbn. apply get_kv_has in E. destruct E as (vals & Hv & ->). exists vals. split; [exact Hv|]. apply hashable_no_lists. exact Eh.
Qed.
Lemma see_rows_Ok rows e : forall gs r, see_rows veq rows e gs = Ok r -> e = None /\ length (snd r) = length gs /\ map fst (snd r) = map fst gs
  /\ forall ks line d, In ks (map fst gs) -> In (line, d) rows -> exists vals, has_keys ks d vals /\ no_lists vals.
Proof.
  induction rows as [|[line d] rows IH]; intros gs r H; cbn [see_rows] in H.
  - destruct e; [discriminate|]. injection H as <-. split; [reflexivity|]. split; [reflexivity|]. split; [reflexivity|]. intros ks line d _ [].
  - destruct (see_row veq d gs) as [r1|] eqn:E1; [|discriminate]. cbn [bind] in H. destruct (see_rows veq rows e (snd r1)) as [r2|] eqn:E2; [|discriminate].
    cbn [bind] in H. injection H as <-. apply see_row_Ok in E1. destruct E1 as [F1 F2]. apply IH in E2. destruct E2 as (G1 & G2 & G3 & G4). cbn [snd].
    assert (Hl : length (snd r1) = length gs) by (rewrite <- (map_length fst (snd r1)), F1, map_length; reflexivity).
    split; [exact G1|]. split; [congruence|]. split; [congruence|]. intros ks ln d' Hks [Hd|Hd].
    + injection Hd as <- <-. apply in_map_iff in Hks. destruct Hks as (g & <- & Hg). apply F2. exact Hg.
    + rewrite <- F1 in Hks. eapply G4; eassumption.
Qed.
Lemma check_child_Ok log key ref child target seen b : length key = length ref -> snd (check_child veq log key ref child target seen) = Ok b ->
  io_end (g_iter child log) = None /\
  forall line d, In (line, d) (rows_of log child) -> exists vals, has_keys ref d vals /\ (length ref = 1%nat \/ no_lists vals \/ In PNone vals).
Proof.
  intros Hl H. unfold check_child in H. destruct ref as [|r0 ref0] eqn:Er; [discriminate|]. rewrite <- Er in *. clear Er r0 ref0.
  apply wbind_Ok in H. destruct H as (b1 & H1 & H2). split; [destruct (io_end (g_iter child log)); [discriminate|reflexivity]|].
  intros line d Hd. destruct (wall_Ok _ _ _ H1 (line, d) Hd) as [b' Hb]. unfold check_row in Hb. cbn [fst snd] in Hb.
  apply wbind_Ok in Hb. destruct Hb as (k & Hk & Hb). cbn in Hk. apply get_kv_has in Hk. destruct Hk as (vals & Hv & ->). exists vals. split; [exact Hv|].
  pose proof (has_keys_length _ _ _ Hv) as Hlen. destruct (Nat.eq_dec (length ref) 1) as [E|E]; [left; exact E|right].
  destruct vals as [|v [|v2 vals]]; [|exfalso; apply E; rewrite <- Hlen; reflexivity|].
  { left. intros l []. }
  cbn [kv_of] in Hb. unfold check_ref in Hb. rewrite Hl in Hb. destruct (Nat.eqb_spec (length ref) 1) as [E'|_]; [contradiction|]. cbn [negb andb] in Hb.
  destruct (existsb is_none (v :: v2 :: vals)) eqn:En.
  - right. apply existsb_exists in En. destruct En as (x & Hx & Ex). destruct x; try discriminate. exact Hx.
  - left. apply wbind_Ok in Hb. destruct Hb as (b2 & Hb & _). cbn in Hb. unfold kv_in in Hb. destruct (kv_hashable (KTup (v :: v2 :: vals))) eqn:Eh; [|discriminate].
    apply hashable_iff. exact Eh.
Qed.
Lemma check_group_Ok strict log grp b : (forall x, In x grp -> length (f_key x) = length (f_ref x)) ->
  (forall x y, In x grp -> In y grp -> f_target x = f_target y) -> snd (check_group veq strict log grp) = Ok b ->
  forall x, In x grp -> f_key x <> [] /\ io_end (g_iter (f_target x) log) = None /\ io_end (g_iter (f_child x) log) = None
    /\ (forall line d, In (line, d) (rows_of log (f_target x)) -> exists vals, has_keys (f_key x) d vals /\ no_lists vals)
    /\ (forall line d, In (line, d) (rows_of log (f_child x)) -> exists vals, has_keys (f_ref x) d vals /\ (length (f_ref x) = 1%nat \/ no_lists vals \/ In PNone vals)).
Proof.
  intros Hlen Hsame H y Hy. destruct grp as [|x grp']; [destruct Hy|]. remember (x :: grp') as grp eqn:Eg.
  assert (Ecg : check_group veq strict log grp = 
      let table := f_target x in
      let t_fkeys := group_runs (fun a b => strs_eqb (f_key a) (f_key b)) grp in
      let keys := map (fun g => match g with y :: _ => f_key y | [] => [] end) t_fkeys in
      if existsb (fun ks => match ks with [] => true | _ => false end) keys then wfail TypeError
      else
        let o := g_iter table log in
        wbind (wlift (see_rows veq (io_rows o) (io_end o) (map (fun ks => (ks, [])) keys))) (fun r =>
          wbind (wall (fun gk => wall (fun y => check_child veq log (fst (snd gk)) (f_ref y) (f_child y) table (snd (snd gk))) (fst gk))
                   (combine t_fkeys (snd r)))
            (fun b => wret (b && negb (strict && fst r))))) by (rewrite Eg; reflexivity).
  rewrite Ecg in H. clear Ecg. cbv zeta in H.
  assert (Hx : In x grp) by (rewrite Eg; left; reflexivity).
  pose proof (runs_same (@f_key V) (fun a b => strs_eqb (f_key a) (f_key b)) grp (fun a b => strs_eqb_eq _ _)) as Hruns.
  pose proof (runs_concat (fun a b : fk4 => strs_eqb (f_key a) (f_key b)) grp) as Hconc.
  remember (group_runs (fun a b : fk4 => strs_eqb (f_key a) (f_key b)) grp) as R eqn:ER. clear ER.
  set (hk := fun g : list fk4 => match g with y :: _ => f_key y | [] => [] end) in *.
  destruct (existsb (fun ks : list pystr => match ks with [] => true | _ => false end) (map hk R)) eqn:E0; [discriminate|].
  apply wbind_Ok in H. destruct H as (r & Hr & H). cbn in Hr. apply see_rows_Ok in Hr. destruct Hr as (S1 & S2 & S3 & S4).
  apply wbind_Ok in H. destruct H as (b1 & H & _).
  pose proof Hy as Hy0. rewrite <- Hconc in Hy0. apply in_concat in Hy0. destruct Hy0 as (g & Hg & Hyg).
  assert (Ehk : hk g = f_key y) by (destruct (Hruns g Hg) as (b0 & g' & -> & Hb); cbn; symmetry; apply Hb; exact Hyg).
  rewrite (Hsame y x Hy Hx).
  assert (Hkeys : map fst (map (fun ks : list pystr => (ks, @nil keyval)) (map hk R)) = map hk R) by (rewrite map_map; cbn; apply map_id).
  rewrite Hkeys in S3, S4. rewrite !map_length in S2.
  destruct (In_nth_error _ _ Hg) as [i Hi].
  assert (Hi2 : exists kk, nth_error (snd r) i = Some kk).
  { destruct (nth_error (snd r) i) eqn:E; [eauto|]. apply nth_error_None in E. assert (i < length R)%nat by (apply nth_error_Some; congruence). lia. }
  destruct Hi2 as [kk Hi2].
  assert (Ek : fst kk = f_key y).
  { assert (A : nth_error (map fst (snd r)) i = Some (fst kk)) by (rewrite nth_error_map, Hi2; reflexivity). rewrite S3, nth_error_map, Hi in A. cbn in A. congruence. }
  assert (Hcomb : In (g, kk) (combine R (snd r))).
  { apply (nth_error_In _ i). apply TableProofs3.nth_error_combine; assumption. }
  destruct (wall_Ok _ _ _ H (g, kk) Hcomb) as [b2 Hb2]. cbn [fst snd] in Hb2. destruct (wall_Ok _ _ _ Hb2 y Hyg) as [b3 Hb3]. cbn in Hb3. rewrite Ek in Hb3.
  apply check_child_Ok in Hb3; [|apply Hlen; exact Hy]. destruct Hb3 as [C1 C2].
  split; [|split; [exact S1|split; [exact C1|split; [|exact C2]]]].
  - intros X. rewrite X in Ehk. assert (T : existsb (fun ks : list pystr => match ks with [] => true | _ => false end) (map hk R) = true); [|congruence].
    apply existsb_exists. exists (hk g). split; [apply in_map; exact Hg|rewrite Ehk; reflexivity].
  - intros line d Hd. apply (S4 (f_key y) line d); [|exact Hd]. rewrite <- Ehk. apply in_map. exact Hg.
Qed.
Lemma check_Ok strict log ts b : snd (check_referential_integrity veq strict log ts) = Ok b ->
  (strict = true -> readable_children ts /\ no_nulls ts)
  /\ (b = true -> keys_match ts)
  /\ (keys_match ts -> readable log ts /\ keys_usable log ts).
Proof.
  intros H. unfold check_referential_integrity in H. apply wbind_Ok in H. destruct H as ([] & H1 & H). apply wbind_Ok in H. destruct H as (b1 & H2 & H).
  apply wbind_Ok in H. destruct H as (L & H3 & H). apply wbind_Ok in H. destruct H as (b2 & H4 & H5). cbn in H1, H3, H5. injection H5 as H5. split; [|split].
  - intros ->. apply strict_nulls_ok. exact H1.
  - intros ->. apply andb_prop in H5. destruct H5 as [-> ->]. apply schema_iff. destruct (validate_schema ts) as [[]|e]; [reflexivity|].
    destruct e; try discriminate. unfold complain in H2. destruct log; discriminate.
  - intros Hm. assert (G : forall child fk target, refers_to ts child fk target ->
        fk_refcols fk <> [] /\ io_end (g_iter target log) = None /\ io_end (g_iter child log) = None
    /\ (forall line d, In (line, d) (rows_of log target) -> exists vals, has_keys (fk_refcols fk) d vals /\ no_lists vals)
    /\ (forall line d, In (line, d) (rows_of log child) -> exists vals, has_keys (fk_cols fk) d vals /\ (length (fk_cols fk) = 1%nat \/ no_lists vals \/ In PNone vals))).
    { intros child fk target Hr. set (x := (target, fk_refcols fk, child, fk_cols fk)).
      assert (Hx : In x L) by (apply (foreign_keys_in ts L H3); cbn; exists fk; auto).
      apply (Permutation_in _ (sort_perm L)) in Hx.
      assert (HinS : forall y, In y (sort_fks L) -> In y L) by (intros y; apply Permutation_in, Permutation_sym, sort_perm).
      pose proof (runs_concat (fun a b : fk4 => str_eqb (g_name (f_target a)) (g_name (f_target b))) (sort_fks L)) as Hc.
      pose proof (runs_same (fun a : fk4 => g_name (f_target a)) (fun a b => str_eqb (g_name (f_target a)) (g_name (f_target b))) (sort_fks L) (fun a b => proj1 (str_eqb_eq _ _))) as Hruns.
      rewrite <- Hc in Hx. apply in_concat in Hx. destruct Hx as (g & Hg & Hxg). destruct (wall_Ok _ _ _ H4 g Hg) as [b3 Hb3].
      assert (Hgi : forall y, In y g -> In y L) by (intros y Hy; apply HinS; rewrite <- Hc; apply in_concat; eauto).
      destruct (Hruns g Hg) as (b0 & g' & Eg & Hb0).
      apply (check_group_Ok strict log g b3) with (x := x) in Hb3; [exact Hb3| | |exact Hxg].
      - intros y Hy. apply Hgi in Hy. apply (foreign_keys_in ts L H3) in Hy. destruct Hy as (fk' & Hr' & -> & ->). apply (proj2 Hm) in Hr'. eapply Forall2_length. exact Hr'.
      - intros y z Hy Hz. apply (same_target ts L y z H3); auto. rewrite (Hb0 y Hy), (Hb0 z Hz). reflexivity. }
    split.
    + intros child fk target Hr. destruct (G _ _ _ Hr) as (_ & A & B & _). auto.
    + intros child fk target Hr. destruct (G _ _ _ Hr) as (A & _ & _ & B & C). auto.
Qed.
(** whenever the check returns True *)
Theorem integrity_sound strict log ts : snd (check_referential_integrity veq strict log ts) = Ok true ->
  keys_match ts /\ readable log ts /\ all_satisfied veq log ts /\ (strict = true -> no_nulls ts /\ all_unique veq log ts).
Proof.
  intros H. destruct (check_Ok _ _ _ _ H) as (H1 & H2 & H3). specialize (H2 eq_refl). destruct (H3 H2) as [Hr Hu]. destruct log.
  - destruct (integrity_log strict ts H2 Hr Hu H1) as (b & ms & E & Hb & _). rewrite E in H. cbn in H. injection H as ->. destruct (proj1 Hb eq_refl) as [Ha Hd].
    split; [exact H2|]. split; [exact Hr|]. split; [exact Ha|]. intros Hs. split; [apply H1; exact Hs|apply Hd; exact Hs].
  - destruct (integrity_nolog strict ts H2 Hr Hu H1) as (Ha & Hv & [Hd|Hd]); [|rewrite (Hv Hd) in H; discriminate].
    destruct (Ha Hd) as (b & E & Hb). rewrite E in H. cbn in H. injection H as ->. split; [exact H2|]. split; [exact Hr|]. split; [exact Hd|].
    intros Hs. split; [apply H1; exact Hs|apply Hb; [reflexivity|exact Hs]].
Qed.
End P.
