(** Proofs for C33. *)
From Verif Require Import PyStr Dsv DsvSpec DsvProofs4 Column Schema Table TableSpec TableProofs TableProofs2 TableProofs5 TableProofs6 Group GroupSpec.

Section P.
Context {V : Type} (veq : V -> V -> bool) (Heq : equivalence veq).
Notation gtable := (@gtable V).
Notation fk4 := (@fk4 V).
Notation keyval := (@keyval V).

(** ** loops of checks *)
Definition outcome (log b nd : bool) (ms : list cmsg) : wres bool :=
  if log then (ms, Ok (b && nd)) else ([], if b then Ok nd else Err ValueError).
Lemma wall_outcome {A} (f : A -> wres bool) log b nd ms l : (forall a, In a l -> f a = outcome log (b a) (nd a) (ms a)) ->
  wall f l = outcome log (forallb b l) (forallb nd l) (flat_map ms l).
Proof.
  induction l as [|a l IH]; intros H; cbn [wall].
  - unfold outcome. destruct log; reflexivity.
  - rewrite (H a (or_introl eq_refl)), IH by (intros x Hx; apply H; right; exact Hx).
    unfold wbind, outcome, wret. destruct log; cbn.
    + rewrite app_nil_r. f_equal. f_equal. destruct (b a), (nd a); cbn; try reflexivity; rewrite ?andb_false_r; reflexivity.
    + destruct (b a); cbn; [|reflexivity]. destruct (forallb b l); cbn; reflexivity.
Qed.
Lemma outcome_ret log : wret true = outcome log true true [].
Proof. destruct log; reflexivity. Qed.

(** ** keys *)
Definition kv_of (vals : list (pyval V)) : keyval := match vals with [v] => KOne v | _ => KTup vals end.
Lemma get_kv_iff ks d vals : ks <> [] -> has_keys ks d vals -> get_kv ks d = Ok (kv_of vals).
Proof.
  intros Hn H. assert (L : mapM (lookup d) ks = Ok vals).
  { apply mapM_Ok_iff. eapply ColumnProofs2.Forall2_impl; [|exact H]. intros k v X. cbn in X. unfold lookup. rewrite X. reflexivity. }
  destruct ks as [|k [|k2 ks]]; [congruence| |].
  - destruct vals as [|v [|]]; try (inversion H; fail); [|exfalso; inversion H; subst; match goal with X : Forall2 _ [] _ |- _ => inversion X end].
    cbn in L. cbn. destruct (lookup d k); [|discriminate]. cbn in *. congruence.
  - destruct vals as [|v [|v2 vals]]; [inversion H|exfalso; inversion H; subst; match goal with X : Forall2 _ (_ :: _) [] |- _ => inversion X end|].
    change (get_kv (k :: k2 :: ks) d) with (l <- mapM (lookup d) (k :: k2 :: ks) ;; Ok (KTup l)). rewrite L. reflexivity.
Qed.
Lemma has_keys_fun ks (d : dict V) v v' : has_keys ks d v -> has_keys ks d v' -> v = v'.
Proof.
  unfold has_keys. intros H. revert v'. induction H as [|k x ks v H1 H IH]; intros v' H'; destruct v' as [|y v']; try (inversion H'; fail); [reflexivity|].
  apply Forall2_cons_iff in H'. destruct H' as [H2 H']. f_equal; [congruence|apply IH; exact H'].
Qed.
Lemma has_keys_length ks (d : dict V) v : has_keys ks d v -> length v = length ks.
Proof. intros H. symmetry. eapply Forall2_length. exact H. Qed.
Lemma kv_hashable_of vals : no_lists vals -> kv_hashable (kv_of vals) = true.
Proof.
  intros H. apply hashable_iff in H. destruct vals as [|v [|]]; cbn in *; auto. rewrite andb_true_r in H. exact H.
Qed.
Lemma kv_eq_of v v' : no_lists v -> length v = length v' -> (kv_eq veq (kv_of v) (kv_of v') = true <-> same_key veq v v').
Proof.
  intros Hn Hl. rewrite <- (key_eq_iff veq v v' Hn). destruct v as [|x [|y v]], v' as [|x' [|y' v']]; try discriminate Hl; cbn [kv_of kv_eq]; try reflexivity.
  cbn [key_eq]. rewrite andb_true_r. reflexivity.
Qed.

(** ** the referenced table *)
Definition kv (ks : list pystr) (d : dict V) : keyval := match get_kv ks d with Ok k => k | Err _ => KOne PNone end.
Definition usable (ks : list pystr) (d : dict V) : Prop := get_kv ks d = Ok (kv ks d) /\ kv_hashable (kv ks d) = true.
Lemma existsb_orb {A} (f g : A -> bool) l : existsb (fun a => f a || g a) l = existsb f l || existsb g l.
Proof. induction l as [|a l IH]; cbn; [reflexivity|]. rewrite IH. destruct (f a), (g a), (existsb f l); reflexivity. Qed.
Fixpoint dup_from (ks : list pystr) (seen : list keyval) (rows : list (nat * dict V)) : bool :=
  match rows with
  | [] => false
  | (_, d) :: rest => existsb (kv_eq veq (kv ks d)) seen || dup_from ks (kv ks d :: seen) rest
  end.
Definition seen_after (ks : list pystr) (rows : list (nat * dict V)) (seen : list keyval) : list keyval :=
  rev (map (fun lr => kv ks (snd lr)) rows) ++ seen.
Lemma see_row_eq d gs : (forall g, In g gs -> usable (fst g) d) ->
  see_row veq d gs = Ok (existsb (fun g => existsb (kv_eq veq (kv (fst g) d)) (snd g)) gs, map (fun g => (fst g, kv (fst g) d :: snd g)) gs).
Proof.
  induction gs as [|[ks seen] gs IH]; intros H; cbn; [reflexivity|]. destruct (H (ks, seen) (or_introl eq_refl)) as [H1 H2]. cbn in H1, H2.
  rewrite H1. cbn. unfold kv_in. rewrite H2. cbn. rewrite IH by (intros g Hg; apply H; right; exact Hg). reflexivity.
Qed.
Lemma see_rows_eq rows : forall gs, (forall g lr, In g gs -> In lr rows -> usable (fst g) (snd lr)) ->
  see_rows veq rows None gs = Ok (existsb (fun g => dup_from (fst g) (snd g) rows) gs, map (fun g => (fst g, seen_after (fst g) rows (snd g))) gs).
Proof.
  induction rows as [|[line d] rows IH]; intros gs H; cbn [see_rows].
  - f_equal. f_equal; [symmetry; clear; induction gs as [|g gs IHg]; [reflexivity|exact IHg]|]. rewrite <- (map_id gs) at 1. apply map_ext. intros [ks s]. reflexivity.
  - rewrite see_row_eq by (intros g Hg; exact (H g (line, d) Hg (or_introl eq_refl))). cbn [bind fst snd].
    rewrite IH.
    + cbn [bind fst snd dup_from]. f_equal. f_equal.
      * rewrite existsb_orb. f_equal. induction gs as [|g gs IHg]; [reflexivity|]. cbn. f_equal. apply IHg. intros g0 lr Hg0. apply H. right. exact Hg0.
      * rewrite map_map. apply map_ext. intros [ks s]. cbn. unfold seen_after. cbn. rewrite <- app_assoc. reflexivity.
    + intros g lr Hg Hlr. apply in_map_iff in Hg. destruct Hg as (g0 & <- & Hg0). cbn. apply H; [exact Hg0|right; exact Hlr].
Qed.

(** ** the referencing tables *)
Definition kv_skip (single : bool) (k : keyval) : bool := negb single && match k with KTup l => existsb is_none l | KOne _ => false end.
Definition refb (single : bool) (seen : list keyval) (k : keyval) : bool := kv_skip single k || existsb (kv_eq veq k) seen.
Lemma check_ref_eq log single m seen k : (kv_hashable k = true \/ kv_skip single k = true) ->
  check_ref veq log single m seen k = outcome log (refb single seen k) true (if refb single seen k then [] else [m]).
Proof.
  unfold kv_skip. intros H. unfold check_ref, refb, kv_skip. destruct (negb single && _); cbn [orb]; [apply outcome_ret|].
  destruct H as [H|H]; [|discriminate]. unfold kv_in, wlift. rewrite H. cbn [wbind]. destruct (existsb (kv_eq veq k) seen); [destruct log; reflexivity|]. destruct log; reflexivity.
Qed.
Definition rowb (key ref : list pystr) (seen : list keyval) (d : dict V) : bool :=
  let single := Nat.eqb (length key) 1 in
  match kv ref d with
  | KOne PNone => true
  | KOne (PList l) => forallb (fun o => refb single seen (KOne (of_opt o))) l
  | k => refb single seen k
  end.
Definition row_ms (key ref : list pystr) (seen : list keyval) (m : cmsg) (d : dict V) : list cmsg :=
  let single := Nat.eqb (length key) 1 in
  match kv ref d with
  | KOne PNone => []
  | KOne (PList l) => flat_map (fun o => if refb single seen (KOne (of_opt o)) then [] else [m]) l
  | k => if refb single seen k then [] else [m]
  end.
Lemma forallb_true {A} (l : list A) : forallb (fun _ => true) l = true.
Proof. induction l; auto. Qed.
Lemma check_row_eq log key ref child target seen lr :
  length key = length ref -> get_kv ref (snd lr) = Ok (kv ref (snd lr)) ->
  (length ref = 1%nat \/ kv_hashable (kv ref (snd lr)) = true \/ kv_skip (Nat.eqb (length ref) 1) (kv ref (snd lr)) = true) ->
  check_row veq log key ref child target seen lr
  = outcome log (rowb key ref seen (snd lr)) true (row_ms key ref seen (NotFound child (fst lr) target) (snd lr)).
Proof.
  intros Hl Hg Hh. unfold check_row, rowb, row_ms. rewrite Hg. unfold wlift at 1.
  cbn [wbind snd fst app]. rewrite Hl.
  assert (Hs : forall v, kv ref (snd lr) = KOne v -> Nat.eqb (length ref) 1 = true).
  { intros v E. rewrite E in Hg. unfold get_kv in Hg. destruct ref as [|a [|b ref]]; [discriminate|reflexivity|].
    destruct (mapM (lookup (snd lr)) (a :: b :: ref)); discriminate. }
  assert (Ht : forall l, kv ref (snd lr) = KTup l -> length ref <> 1%nat).
  { intros l E. rewrite E in Hg. unfold get_kv in Hg. destruct ref as [|a [|b ref]]; [discriminate| |cbn; lia]. destruct (lookup (snd lr) a); discriminate. }
  destruct (kv ref (snd lr)) as [[|v|l]|l] eqn:E.
  - destruct log; reflexivity.
  - rewrite (Hs _ eq_refl). rewrite <- surjective_pairing. rewrite check_ref_eq by (left; reflexivity). reflexivity.
  - rewrite (Hs _ eq_refl). rewrite <- surjective_pairing.
    rewrite (wall_outcome _ log (fun o => refb true seen (KOne (of_opt o))) (fun _ => true) (fun o => if refb true seen (KOne (of_opt o)) then [] else [NotFound child (fst lr) target])).
    + rewrite forallb_true. reflexivity.
    + intros o _. apply check_ref_eq. left. destruct o; reflexivity.
  - rewrite <- surjective_pairing. destruct Hh as [Hh|Hh]; [exfalso; exact (Ht _ eq_refl Hh)|]. apply check_ref_eq. exact Hh.
Qed.

(** ** grouping and sorting *)
Lemma runs_concat {A} (same : A -> A -> bool) l : concat (group_runs same l) = l.
Proof.
  induction l as [|a l IH]; cbn; [reflexivity|]. destruct (group_runs same l) as [|[|b g] gs]; cbn in *.
  - congruence.
  - rewrite IH. reflexivity.
  - destruct (same a b); cbn; congruence.
Qed.
Lemma runs_same {A B} (h : A -> B) (same : A -> A -> bool) l : (forall a b, same a b = true -> h a = h b) ->
  forall g, In g (group_runs same l) -> exists b g', g = b :: g' /\ forall a, In a g -> h a = h b.
Proof.
  intros Hs. induction l as [|a l IH]; intros g Hg; cbn in Hg; [destruct Hg|].
  destruct (group_runs same l) as [|[|b g0] gs] eqn:E.
  - destruct Hg as [<-|[]]. exists a, []. split; [reflexivity|]. intros x [<-|[]]. reflexivity.
  - destruct (IH [] (or_introl eq_refl)) as (b & g' & X & _). discriminate.
  - destruct (same a b) eqn:Es.
    + destruct Hg as [<-|Hg]; [|apply IH; right; exact Hg]. exists a, (b :: g0). split; [reflexivity|].
      destruct (IH (b :: g0) (or_introl eq_refl)) as (b' & g' & X & Y). injection X as <- <-.
      intros x [<-|Hx]; [reflexivity|]. rewrite (Y x Hx). symmetry. apply Hs. exact Es.
    + destruct Hg as [<-|Hg]; [|apply IH; exact Hg]. exists a, []. split; [reflexivity|]. intros x [<-|[]]. reflexivity.
Qed.
Lemma insert_perm x l : Permutation (x :: l) (@insert_fk V x l).
Proof.
  induction l as [|y l IH]; cbn; [apply Permutation_refl|]. destruct (fk_cmp x y); try apply Permutation_refl.
  eapply Permutation_trans; [apply perm_swap|]. apply perm_skip. exact IH.
Qed.
Lemma sort_perm l : Permutation l (@sort_fks V l).
Proof. induction l as [|x l IH]; cbn; [constructor|]. eapply Permutation_trans; [apply perm_skip; exact IH|apply insert_perm]. Qed.
Lemma str_cmp_eq a : forall b, str_cmp a b = Eq -> a = b.
Proof.
  induction a as [|x a IH]; intros [|y b] H; cbn in H; try discriminate; [reflexivity|].
  destruct (N.compare_spec x y); try discriminate. subst. f_equal. apply IH. exact H.
Qed.
Lemma strs_eqb_eq a b : strs_eqb a b = true -> a = b.
Proof.
  unfold strs_eqb. revert b. induction a as [|x a IH]; intros [|y b] H; cbn in H; try discriminate; [reflexivity|].
  destruct (str_cmp x y) eqn:E; try discriminate. apply str_cmp_eq in E. subst. f_equal. apply IH. exact H.
Qed.
Lemma forallb_concat {A} (f : A -> bool) ll : forallb (forallb f) ll = forallb f (concat ll).
Proof. induction ll as [|l ll IH]; cbn; [reflexivity|]. rewrite forallb_app, IH. reflexivity. Qed.
Lemma flat_map_concat2 {A B} (f : A -> list B) ll : flat_map (flat_map f) ll = flat_map f (concat ll).
Proof. induction ll as [|l ll IH]; cbn; [reflexivity|]. rewrite flat_map_app, IH. reflexivity. Qed.

(** ** one group *)
Definition seen_for (log : bool) (x : fk4) : list keyval := seen_after (f_key x) (io_rows (g_iter (f_target x) log)) [].
Definition childb (log : bool) (x : fk4) : bool := forallb (fun lr => rowb (f_key x) (f_ref x) (seen_for log x) (snd lr)) (io_rows (g_iter (f_child x) log)).
Definition child_ms (log : bool) (x : fk4) : list cmsg :=
  flat_map (fun lr => row_ms (f_key x) (f_ref x) (seen_for log x) (NotFound (g_name (f_child x)) (fst lr) (g_name (f_target x))) (snd lr)) (io_rows (g_iter (f_child x) log)).
Definition dupb (log : bool) (x : fk4) : bool := dup_from (f_key x) [] (io_rows (g_iter (f_target x) log)).
Definition fk_ok (log : bool) (x : fk4) : Prop :=
  f_key x <> [] /\ length (f_key x) = length (f_ref x)
  /\ io_end (g_iter (f_target x) log) = None /\ io_end (g_iter (f_child x) log) = None
  /\ (forall lr, In lr (io_rows (g_iter (f_target x) log)) -> usable (f_key x) (snd lr))
  /\ (forall lr, In lr (io_rows (g_iter (f_child x) log)) -> get_kv (f_ref x) (snd lr) = Ok (kv (f_ref x) (snd lr))
        /\ (length (f_ref x) = 1%nat \/ kv_hashable (kv (f_ref x) (snd lr)) = true \/ kv_skip (Nat.eqb (length (f_ref x)) 1) (kv (f_ref x) (snd lr)) = true)).

Lemma check_child_eq log x : fk_ok log x ->
  check_child veq log (f_key x) (f_ref x) (f_child x) (f_target x) (seen_for log x) = outcome log (childb log x) true (child_ms log x).
Proof.
  intros (H1 & H2 & _ & H4 & _ & H6). unfold check_child. destruct (f_ref x) as [|r rs] eqn:Er; [destruct (f_key x); [congruence|discriminate]|]. rewrite <- Er.
  rewrite (wall_outcome _ log (fun lr => rowb (f_key x) (f_ref x) (seen_for log x) (snd lr)) (fun _ => true)
    (fun lr => row_ms (f_key x) (f_ref x) (seen_for log x) (NotFound (g_name (f_child x)) (fst lr) (g_name (f_target x))) (snd lr))).
  - rewrite H4, forallb_true. unfold childb, child_ms, wbind, wret, outcome. destruct log; cbn.
    + rewrite app_nil_r. reflexivity.
    + destruct (forallb _ _); reflexivity.
  - intros lr Hlr. rewrite <- Er in *. destruct (H6 lr Hlr) as [A B]. apply check_row_eq; assumption.
Qed.

Definition gnd (strict log : bool) (x : fk4) : bool := negb (strict && dupb log x).
Lemma check_group_eq strict log grp : grp <> [] -> (forall x, In x grp -> fk_ok log x) ->
  (forall x y, In x grp -> In y grp -> f_target x = f_target y) ->
  check_group veq strict log grp = outcome log (forallb (childb log) grp) (forallb (gnd strict log) grp) (flat_map (child_ms log) grp).
Proof.
  intros Hne Hok Hsame. destruct grp as [|x grp']; [congruence|]. remember (x :: grp') as grp eqn:Eg. cbn [check_group].
  assert (Ecg : check_group veq strict log grp = 
      let table := f_target x in
      let t_fkeys := group_runs (fun a b => strs_eqb (f_key a) (f_key b)) grp in
      let keys := map (fun g => match g with y :: _ => f_key y | [] => [] end) t_fkeys in
      if existsb (fun ks => match ks with [] => true | _ => false end) keys then wfail TypeError
      else
        let o := g_iter table log in
        wbind (wlift (see_rows veq (io_rows o) (io_end o) (map (fun ks => (ks, [])) keys))) (fun r =>
          wbind (wall (fun gk => wall (fun y => check_child veq log (fst (snd gk)) (f_ref y) (f_child y) table (snd (snd gk))) (fst gk))
                   (combine t_fkeys (snd r)))
            (fun b => wret (b && negb (strict && fst r))))) by (rewrite Eg; reflexivity).
  rewrite Ecg. clear Ecg. cbv zeta.
  assert (Hx : In x grp) by (rewrite Eg; left; reflexivity).
  pose proof (runs_same (@f_key V) (fun a b => strs_eqb (f_key a) (f_key b)) grp (fun a b => strs_eqb_eq _ _)) as Hruns.
  pose proof (runs_concat (fun a b : fk4 => strs_eqb (f_key a) (f_key b)) grp) as Hconc.
  remember (group_runs (fun a b : fk4 => strs_eqb (f_key a) (f_key b)) grp) as R eqn:ER. clear ER.
  set (hk := fun g : list fk4 => match g with y :: _ => f_key y | [] => [] end).
  assert (Hin : forall g y, In g R -> In y g -> In y grp /\ hk g = f_key y).
  { intros g y Hg Hy. split; [rewrite <- Hconc; apply in_concat; eauto|]. destruct (Hruns g Hg) as (b & g' & -> & H). cbn. symmetry. apply H. exact Hy. }
  assert (Hhd : forall g, In g R -> exists y, In y g /\ hk g = f_key y).
  { intros g Hg. destruct (Hruns g Hg) as (b & g' & -> & H). exists b. split; [left; reflexivity|reflexivity]. }
  assert (E1 : existsb (fun ks => match ks with [] => true | _ => false end) (map hk R) = false).
  { destruct (existsb _ _) eqn:E; [|reflexivity]. apply existsb_exists in E. destruct E as (ks & Hk & E). apply in_map_iff in Hk. destruct Hk as (g & <- & Hg).
    destruct (Hhd g Hg) as (y & Hy & Ey). destruct (Hin g y Hg Hy) as [Hy' _]. destruct (Hok y Hy') as (Hn & _). rewrite Ey in E. destruct (f_key y); [congruence|discriminate]. }
  rewrite E1. assert (He : io_end (g_iter (f_target x) log) = None) by apply (Hok x Hx). rewrite He.
  rewrite see_rows_eq.
  2:{ intros g lr Hg Hlr. apply in_map_iff in Hg. destruct Hg as (ks & <- & Hg). apply in_map_iff in Hg. destruct Hg as (g & <- & Hg).
      destruct (Hhd g Hg) as (y & Hy & Ey). destruct (Hin g y Hg Hy) as [Hy' _]. cbn [fst]. rewrite Ey. destruct (Hok y Hy') as (_ & _ & _ & _ & H & _).
      apply H. rewrite (Hsame y x Hy' Hx). exact Hlr. }
  unfold wlift. unfold wbind at 1. cbn [snd fst app]. rewrite <- surjective_pairing.
  set (f2 := fun gk : list fk4 * (list pystr * list keyval) => wall (fun y => check_child veq log (fst (snd gk)) (f_ref y) (f_child y) (f_target x) (snd (snd gk))) (fst gk)).
  assert (Hcomb : combine R (map (fun g : list pystr * list keyval => (fst g, seen_after (fst g) (io_rows (g_iter (f_target x) log)) (snd g))) (map (fun ks => (ks, [])) (map hk R)))
                  = map (fun g => (g, (hk g, seen_after (hk g) (io_rows (g_iter (f_target x) log)) []))) R).
  { rewrite !map_map. clear. induction R as [|g R IH]; cbn; [reflexivity|]. f_equal. exact IH. }
  rewrite Hcomb.
  rewrite (wall_outcome f2 log (fun gk => forallb (childb log) (fst gk)) (fun _ => true) (fun gk => flat_map (child_ms log) (fst gk))).
  2:{ intros gk Hgk. apply in_map_iff in Hgk. destruct Hgk as (g & <- & Hg). unfold f2. cbn [fst snd].
      rewrite (wall_outcome _ log (childb log) (fun _ => true) (child_ms log)); [rewrite forallb_true; reflexivity|].
      intros y Hy. destruct (Hin g y Hg Hy) as [Hy' Ey]. rewrite Ey. rewrite <- (Hsame y x Hy' Hx). apply check_child_eq. apply Hok. exact Hy'. }
  rewrite forallb_true.
  assert (F1 : forallb (fun gk : list fk4 * (list pystr * list keyval) => forallb (childb log) (fst gk)) (map (fun g => (g, (hk g, seen_after (hk g) (io_rows (g_iter (f_target x) log)) []))) R) = forallb (childb log) grp).
  { rewrite <- Hconc, <- forallb_concat. clear. induction R as [|g R IH]; cbn; [reflexivity|]. rewrite IH. reflexivity. }
  assert (F2 : flat_map (fun gk : list fk4 * (list pystr * list keyval) => flat_map (child_ms log) (fst gk)) (map (fun g => (g, (hk g, seen_after (hk g) (io_rows (g_iter (f_target x) log)) []))) R) = flat_map (child_ms log) grp).
  { rewrite <- Hconc, <- flat_map_concat2. clear. induction R as [|g R IH]; cbn; [reflexivity|]. rewrite IH. reflexivity. }
  assert (F3 : negb (strict && existsb (fun g : list pystr * list keyval => dup_from (fst g) (snd g) (io_rows (g_iter (f_target x) log))) (map (fun ks => (ks, [])) (map hk R))) = forallb (gnd strict log) grp).
  { destruct strict; cbn [andb negb].
    - rewrite map_map. clear E1.
      match goal with |- negb ?ee = _ => destruct ee eqn:E end; symmetry; cbn [negb].
      + apply existsb_exists in E. destruct E as (g & Hg & E). apply in_map_iff in Hg. destruct Hg as (g0 & <- & Hg). cbn in E.
        destruct (Hhd g0 Hg) as (y & Hy & Ey). destruct (Hin g0 y Hg Hy) as [Hy' _]. destruct (forallb (gnd true log) grp) eqn:F; [|reflexivity].
        rewrite forallb_forall in F. specialize (F y Hy'). unfold gnd, dupb in F. cbn in F. rewrite (Hsame y x Hy' Hx), <- Ey, E in F. discriminate.
      + apply forallb_forall. intros y Hy. unfold gnd, dupb. cbn. apply negb_true_iff. rewrite (Hsame y x Hy Hx).
        destruct (dup_from (f_key y) [] (io_rows (g_iter (f_target x) log))) eqn:D; [|reflexivity]. rewrite <- E. symmetry. apply existsb_exists.
        rewrite <- Hconc in Hy. apply in_concat in Hy. destruct Hy as (g & Hg & Hy). exists (hk g, []). split; [apply in_map_iff; exists g; auto|].
        cbn. destruct (Hin g y Hg Hy) as [_ ->]. exact D.
    - symmetry. apply forallb_forall. intros y _. reflexivity. }
  rewrite F1, F2. unfold wbind, wret, outcome. destruct log; cbn [snd fst].
  - rewrite app_nil_r, andb_true_r, F3. reflexivity.
  - destruct (forallb (childb false) grp); cbn [snd fst app]; [rewrite F3|]; reflexivity.
Qed.
End P.
