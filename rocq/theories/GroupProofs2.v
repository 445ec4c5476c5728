(** Proofs for C33: the whole check. *)
From Verif Require Import PyStr Dsv DsvSpec DsvProofs4 Column Schema Table TableSpec TableProofs TableProofs2 TableProofs5 TableProofs6 Group GroupSpec GroupProofs1.

Section P.
Context {V : Type} (veq : V -> V -> bool).
Notation gtable := (@gtable V).
Notation fk4 := (@fk4 V).
Notation keyval := (@keyval V).

(** ** resolving foreign keys *)
Lemma tabledict_last (ts : list gtable) r t : dget str_eqb (tabledict ts) r = Some t <-> last_named ts r t.
Proof.
  unfold tabledict, last_named. rewrite (dget_dset_all _ str_eqb_eq). cbn [dget].
  assert (G : forall l, dget str_eqb (rev (map (fun t0 : gtable => (g_name t0, t0)) l)) r = Some t <->
     exists pre post, l = pre ++ t :: post /\ g_name t = r /\ forall t', In t' post -> g_name t' <> r).
  { intros l. rewrite <- map_rev.
    assert (Ei : l = rev (rev l)) by (symmetry; apply rev_involutive).
    revert Ei. generalize (rev l) as l'. intros l' ->.
    transitivity (exists pre post, l' = pre ++ t :: post /\ g_name t = r /\ forall t', In t' pre -> g_name t' <> r).
    - induction l' as [|u l' IH]; cbn.
      + split; [discriminate|]. intros (pre & post & H & _). destruct pre; discriminate.
      + destruct (str_eqb r (g_name u)) eqn:E.
        * apply str_eqb_eq in E. split.
          -- intros H. injection H as <-. exists [], l'. split; [reflexivity|]. split; [auto|]. intros t' [].
          -- intros (pre & post & H & Hn & Hp). destruct pre as [|p pre]; cbn in H; injection H as H1 H2; [congruence|].
             exfalso. apply (Hp p (or_introl eq_refl)). congruence.
        * rewrite IH. split.
          -- intros (pre & post & H & Hn & Hp). exists (u :: pre), post. subst l'. split; [reflexivity|]. split; [exact Hn|].
             intros t' [<-|H']; [intros X; rewrite <- X, (proj2 (str_eqb_eq _ _) eq_refl) in E; discriminate|apply Hp; exact H'].
          -- intros (pre & post & H & Hn & Hp). destruct pre as [|p pre]; cbn in H; injection H as H1 H2.
             ++ subst u. rewrite Hn, (proj2 (str_eqb_eq _ _) eq_refl) in E. discriminate.
             ++ exists pre, post. split; [exact H2|]. split; [exact Hn|]. intros t' H'. apply Hp. right. exact H'.
    - split.
      + intros (pre & post & -> & Hn & Hp). exists (rev post), (rev pre). rewrite rev_app_distr. cbn. rewrite <- app_assoc. split; [reflexivity|].
        split; [exact Hn|]. intros t' H'. apply Hp. apply in_rev. exact H'.
      + intros (pre & post & H & Hn & Hp). exists (rev post), (rev pre).
        split; [rewrite <- (rev_involutive l'), H, rev_app_distr; cbn; rewrite <- app_assoc; reflexivity|]. split; [exact Hn|].
        intros t' H'. apply Hp. apply in_rev in H'. exact H'. }
  rewrite <- G. destruct (dget str_eqb (rev _) r); [reflexivity|split; discriminate].
Qed.
Lemma last_named_fun (ts : list gtable) r t t' : last_named ts r t -> last_named ts r t' -> t = t'.
Proof. intros H H'. apply tabledict_last in H, H'. congruence. Qed.
Lemma last_named_in (ts : list gtable) r t : last_named ts r t -> In t ts.
Proof. intros (pre & post & -> & _). apply in_elt. Qed.

Definition fkpairs (ts : list gtable) : list (gtable * fkey) :=
  flat_map (fun t => map (fun fk => (t, fk)) (filter internal (g_fkeys t))) ts.
Lemma fkpairs_in ts t fk : In (t, fk) (fkpairs ts) <-> In t ts /\ In fk (g_fkeys t) /\ fk_schemaReference fk = None.
Proof.
  unfold fkpairs. rewrite in_flat_map. split.
  - intros (u & Hu & H). apply in_map_iff in H. destruct H as (f & E & Hf). injection E as <- <-. apply filter_In in Hf. destruct Hf as [Hf Hi].
    split; [exact Hu|]. split; [exact Hf|]. unfold internal in Hi. destruct (fk_schemaReference f); [discriminate|reflexivity].
  - intros (H1 & H2 & H3). exists t. split; [exact H1|]. apply in_map. apply filter_In. split; [exact H2|]. unfold internal. rewrite H3. reflexivity.
Qed.
Lemma resolve_iff (ts : list gtable) t fk x : resolve_fk ts t fk = Ok x <-> exists r target, fk_resource fk = Some r /\ last_named ts r target /\ x = (target, fk_refcols fk, t, fk_cols fk).
Proof.
  unfold resolve_fk. split.
  - destruct (fk_resource fk) as [r|]; [|discriminate]. destruct (dget str_eqb (tabledict ts) r) as [target|] eqn:E; [|discriminate].
    intros H. injection H as <-. exists r, target. apply tabledict_last in E. auto.
  - intros (r & target & -> & H & ->). apply tabledict_last in H. rewrite H. reflexivity.
Qed.
Lemma mapM_total {A B} (f : A -> res B) l : (forall a, In a l -> exists b, f a = Ok b) -> exists bs, mapM f l = Ok bs.
Proof.
  induction l as [|a l IH]; intros H; [exists []; reflexivity|]. destruct (H a (or_introl eq_refl)) as [b Hb].
  destruct IH as [bs Hbs]; [intros x Hx; apply H; right; exact Hx|]. exists (b :: bs). cbn. rewrite Hb. cbn. rewrite Hbs. reflexivity.
Qed.
Lemma mapM_Ok_in {A B} (f : A -> res B) l bs : mapM f l = Ok bs -> (forall a, In a l -> exists b, f a = Ok b /\ In b bs) /\ (forall b, In b bs -> exists a, In a l /\ f a = Ok b).
Proof.
  intros H. apply mapM_Ok_iff in H. induction H as [|a b l bs H1 H2 [I1 I2]]; [split; intros x []|]. split.
  - intros x [<-|Hx]; [exists b; cbn; auto|]. destruct (I1 x Hx) as (y & Hy & Hy'). exists y. cbn. auto.
  - intros x [<-|Hx]; [exists a; cbn; auto|]. destruct (I2 x Hx) as (y & Hy & Hy'). exists y. cbn. auto.
Qed.
Lemma foreign_keys_ok (ts : list gtable) : all_resolved ts <-> exists L, foreign_keys ts = Ok L.
Proof.
  unfold foreign_keys. fold (fkpairs ts). split.
  - intros H. apply mapM_total. intros [t fk] Hin. apply fkpairs_in in Hin. destruct Hin as (H1 & H2 & H3).
    destruct (H t fk H1 H2 H3) as (target & _ & _ & _ & r & Hr & Hl). cbn. eexists. apply resolve_iff. exists r, target. auto.
  - intros (L & HL) t fk H1 H2 H3. apply mapM_Ok_in in HL. destruct HL as [HL _].
    destruct (HL (t, fk)) as (x & Hx & _); [apply fkpairs_in; auto|]. cbn in Hx. apply resolve_iff in Hx. destruct Hx as (r & target & Hr & Hl & _).
    exists target. split; [exact H1|]. split; [exact H2|]. split; [exact H3|]. eauto.
Qed.
Lemma foreign_keys_in (ts : list gtable) L : foreign_keys ts = Ok L ->
  forall x, In x L <-> exists fk, refers_to ts (f_child x) fk (f_target x) /\ f_key x = fk_refcols fk /\ f_ref x = fk_cols fk.
Proof.
  unfold foreign_keys. fold (fkpairs ts). intros HL x. apply mapM_Ok_in in HL. destruct HL as [HL1 HL2]. split.
  - intros Hx. destruct (HL2 x Hx) as ([t fk] & Hin & Hr). apply fkpairs_in in Hin. destruct Hin as (H1 & H2 & H3). cbn in Hr.
    apply resolve_iff in Hr. destruct Hr as (r & target & Hr & Hl & ->). exists fk. cbn. split; [|auto]. split; [exact H1|]. split; [exact H2|]. split; [exact H3|]. eauto.
  - intros (fk & (H1 & H2 & H3 & r & Hr & Hl) & Hk & Hf). destruct (HL1 (f_child x, fk)) as (y & Hy & Hin); [apply fkpairs_in; auto|].
    cbn in Hy. apply resolve_iff in Hy. destruct Hy as (r' & target & Hr' & Hl' & ->). rewrite Hr in Hr'. injection Hr' as <-.
    rewrite (last_named_fun _ _ _ _ Hl' Hl) in Hin. destruct x as [[[a b] c] d]. cbn in *. subst b d. exact Hin.
Qed.

(** ** validate_schema *)
Lemma check_pair_iff (st ct : gtable) p : check_pair st ct p = Ok tt <-> column_pair st ct (fst p) (snd p).
Proof.
  unfold check_pair, column_pair, own_base. destruct p as [k r]. cbn [fst snd]. split.
  - destruct (get_column (g_cols st) k) as [[c|]|]; cbn; try discriminate; destruct (get_column (g_cols ct) r) as [[c'|]|]; cbn; try discriminate.
    intros H. exists c, c'. split; [reflexivity|]. split; [reflexivity|]. intros t t' E E'. rewrite E, E' in H.
    destruct (str_eqb (dt_base t) (dt_base t')) eqn:Eb; [|discriminate]. apply str_eqb_eq. exact Eb.
  - intros (c & c' & -> & -> & H). cbn. destruct (de_datatype (c_desc (tc_col c))) as [[t|]|]; try reflexivity.
    destruct (de_datatype (c_desc (tc_col c'))) as [[t'|]|]; try reflexivity. rewrite (H t t' eq_refl eq_refl), (proj2 (str_eqb_eq _ _) eq_refl). reflexivity.
Qed.
Lemma mapM_unit {A} (f : A -> res unit) l : (exists bs, mapM f l = Ok bs) <-> forall a, In a l -> f a = Ok tt.
Proof.
  split.
  - intros (bs & H) a Ha. apply mapM_Ok_in in H. destruct H as [H _]. destruct (H a Ha) as ([] & E & _). exact E.
  - intros H. apply mapM_total. intros a Ha. exists tt. apply H. exact Ha.
Qed.
Lemma Forall2_combine {A B} (P : A -> B -> Prop) l : forall l', Forall2 P l l' <-> length l = length l' /\ forall p, In p (combine l l') -> P (fst p) (snd p).
Proof.
  induction l as [|a l IH]; intros [|b l'].
  - split; [split; [reflexivity|intros p []]|constructor].
  - split; [intros H; inversion H|intros [H _]; discriminate].
  - split; [intros H; inversion H|intros [H _]; discriminate].
  - rewrite Forall2_cons_iff, IH. cbn. split.
    + intros [H1 [H2 H3]]. split; [lia|]. intros p [<-|Hp]; [exact H1|apply H3; exact Hp].
    + intros [H1 H2]. split; [apply (H2 (a, b)); left; reflexivity|]. split; [lia|]. intros p Hp. apply H2. right. exact Hp.
Qed.
Lemma check_fk_iff (x : fk4) : check_fk x = Ok tt <-> Forall2 (column_pair (f_target x) (f_child x)) (f_key x) (f_ref x).
Proof.
  unfold check_fk. rewrite Forall2_combine. destruct (Nat.eqb_spec (length (f_key x)) (length (f_ref x))) as [E|E].
  - pose proof (mapM_unit (check_pair (f_target x) (f_child x)) (combine (f_key x) (f_ref x))) as M.
    destruct (mapM (check_pair (f_target x) (f_child x)) (combine (f_key x) (f_ref x))) as [bs|e] eqn:Em; cbn.
    + split; [|reflexivity]. intros _. split; [exact E|]. intros p Hp. apply check_pair_iff. apply M; [eauto|exact Hp].
    + split; [discriminate|]. intros [_ H]. destruct M as [_ M]. destruct M as [bs M]; [|discriminate]. intros p Hp. apply check_pair_iff. apply H. exact Hp.
  - split; [discriminate|]. intros [H _]. contradiction.
Qed.
Theorem schema_iff (ts : list gtable) : validate_schema ts = Ok tt <-> keys_match ts.
Proof.
  unfold validate_schema, keys_match. rewrite foreign_keys_ok. split.
  - destruct (foreign_keys ts) as [L|e] eqn:EL; cbn; [|destruct e; discriminate].
    destruct (mapM check_fk L) as [us|e] eqn:EM; cbn; [|destruct e; discriminate]. intros _. split; [eauto|].
    intros child fk target H. pose proof (foreign_keys_in ts L EL (target, fk_refcols fk, child, fk_cols fk)) as I. cbn in I.
    apply mapM_Ok_in in EM. destruct EM as [EM _]. destruct (EM (target, fk_refcols fk, child, fk_cols fk)) as ([] & E & _).
    + apply I. exists fk. auto.
    + apply check_fk_iff in E. exact E.
  - intros [(L & EL) H]. rewrite EL. cbn. destruct (proj2 (mapM_unit check_fk L)) as [bs E].
    + intros x Hx. apply check_fk_iff. apply (foreign_keys_in ts L EL) in Hx. destruct Hx as (fk & Hr & -> & ->). apply H. exact Hr.
    + rewrite E. reflexivity.
Qed.

(** ** the whole check *)
Lemma wall_outcome' {A} (f : A -> wres bool) log b nd ms l : (forall a, In a l -> f a = outcome log (b a) (nd a) (ms a)) ->
  wall f l = outcome log (forallb b l) (forallb nd l) (flat_map ms l).
Proof. exact (wall_outcome f log b nd ms l). Qed.
Lemma forallb_perm {A} (f : A -> bool) l l' : Permutation l l' -> forallb f l = forallb f l'.
Proof.
  induction 1 as [|x l l' H IH|x y l|l l' l'' H1 IH1 H2 IH2]; cbn; [reflexivity|rewrite IH; reflexivity| |congruence].
  destruct (f x), (f y); reflexivity.
Qed.
Lemma same_target (ts : list gtable) L x y : foreign_keys ts = Ok L -> In x L -> In y L -> g_name (f_target x) = g_name (f_target y) -> f_target x = f_target y.
Proof.
  intros HL Hx Hy E. apply (foreign_keys_in ts L HL) in Hx, Hy. destruct Hx as (fk & (_ & _ & _ & r & _ & Hl) & _). destruct Hy as (fk' & (_ & _ & _ & r' & _ & Hl') & _).
  assert (r = r') as <- by (destruct Hl as (? & ? & _ & <- & _), Hl' as (? & ? & _ & <- & _); exact E).
  eapply last_named_fun; eassumption.
Qed.
Lemma check_eq (strict log : bool) (ts : list gtable) L : foreign_keys ts = Ok L -> validate_schema ts = Ok tt ->
  (if strict then strict_nulls ts else Ok tt) = Ok tt -> (forall x, In x L -> fk_ok log x) ->
  check_referential_integrity veq strict log ts
  = outcome log (forallb (childb veq log) L) (forallb (gnd veq strict log) L) (flat_map (child_ms veq log) (sort_fks L)).
Proof.
  intros HL HS HN Hok. unfold check_referential_integrity. rewrite HL, HS, HN.
  assert (P : forall F : list fk4 -> wres bool, wbind (wlift (Ok tt)) (fun _ => wbind (wret true) (fun b : bool => wbind (wlift (Ok L)) (fun fks => wbind (F fks) (fun b' : bool => wret (b && b'))))) = F L).
  { intros F. unfold wbind, wlift, wret; cbn. destruct (F L) as [ms [b|e]]; cbn; [rewrite app_nil_r|]; reflexivity. }
  etransitivity; [exact (P (fun fks => wall (check_group veq strict log) (group_runs (fun a b => str_eqb (g_name (f_target a)) (g_name (f_target b))) (sort_fks fks))))|]. clear P.
  pose proof (sort_perm L) as HP. set (S := sort_fks L) in *.
  assert (HinS : forall x, In x S -> In x L) by (intros x; apply Permutation_in, Permutation_sym, HP).
  pose proof (runs_concat (fun a b : fk4 => str_eqb (g_name (f_target a)) (g_name (f_target b))) S) as Hc.
  pose proof (runs_same (fun a : fk4 => g_name (f_target a)) (fun a b => str_eqb (g_name (f_target a)) (g_name (f_target b))) S (fun a b => proj1 (str_eqb_eq _ _))) as Hr.
  remember (group_runs (fun a b : fk4 => str_eqb (g_name (f_target a)) (g_name (f_target b))) S) as R eqn:ER. clear ER.
  rewrite (wall_outcome (check_group veq strict log) log (forallb (childb veq log)) (forallb (gnd veq strict log)) (flat_map (child_ms veq log))).
  - rewrite !forallb_concat, flat_map_concat2, Hc. rewrite <- !(forallb_perm _ _ _ HP). reflexivity.
  - intros g Hg. assert (Hgi : forall y, In y g -> In y L) by (intros y Hy; apply HinS; rewrite <- Hc; apply in_concat; eauto).
    destruct (Hr g Hg) as (b & g' & Eg & Hb). apply check_group_eq.
    + rewrite Eg. discriminate.
    + intros x Hx. apply Hok. apply Hgi. exact Hx.
    + intros x y Hx Hy. apply (same_target ts L x y HL); auto. rewrite (Hb x Hx), (Hb y Hy). reflexivity.
Qed.

(** ** from booleans to the specification *)
Context (Heq : equivalence veq).
Lemma kv_has ks (d : dict V) vals : ks <> [] -> has_keys ks d vals -> kv ks d = kv_of vals.
Proof. intros Hn H. unfold kv. rewrite (get_kv_iff ks d vals Hn H). reflexivity. Qed.
Lemma usable_has ks (d : dict V) vals : ks <> [] -> has_keys ks d vals -> no_lists vals -> usable ks d.
Proof. intros Hn H Hl. unfold usable. rewrite (kv_has ks d vals Hn H). split; [apply get_kv_iff; assumption|apply kv_hashable_of; exact Hl]. Qed.

Section One.
Context (log : bool) (ts : list gtable) (child target : gtable) (fk : fkey).
Hypothesis Hrefers : refers_to ts child fk target.
Hypothesis Hmatch : length (fk_refcols fk) = length (fk_cols fk).
Hypothesis Hu : keys_usable log ts.
Let x : fk4 := (target, fk_refcols fk, child, fk_cols fk).

Lemma ref_nonempty : fk_refcols fk <> [].
Proof. exact (proj1 (Hu child fk target Hrefers)). Qed.
Lemma cols_nonempty : fk_cols fk <> [].
Proof. intros H. apply ref_nonempty. rewrite H in Hmatch. destruct (fk_refcols fk); [reflexivity|discriminate]. Qed.

Lemma seen_iff vals : no_lists vals -> length vals = length (fk_refcols fk) ->
  (existsb (kv_eq veq (kv_of vals)) (seen_for log x) = true <-> found veq log target fk vals).
Proof.
  intros Hn Hl. rewrite existsb_exists. unfold seen_for, seen_after. cbn [f_key f_target x fst snd]. rewrite app_nil_r. unfold found, rows_of.
  destruct (Hu child fk target Hrefers) as (_ & Ht & _). unfold rows_of in Ht. split.
  - intros (k & Hk & E). apply in_rev in Hk. apply in_map_iff in Hk. destruct Hk as ([line d] & <- & Hd). cbn [snd] in E.
    destruct (Ht line d Hd) as (vals' & Hv & Hnl). rewrite (kv_has _ _ _ ref_nonempty Hv) in E.
    apply kv_eq_of in E; [|exact Hn|rewrite (has_keys_length _ _ _ Hv); exact Hl]. exists line, d, vals'. auto.
  - intros (line & d & vals' & Hd & Hv & E). exists (kv (fk_refcols fk) d). split.
    + rewrite <- in_rev. apply in_map_iff. exists (line, d). auto.
    + rewrite (kv_has _ _ _ ref_nonempty Hv). apply kv_eq_of; [exact Hn|rewrite (has_keys_length _ _ _ Hv); exact Hl|exact E].
Qed.

Lemma row_iff line d : In (line, d) (rows_of log child) ->
  (rowb veq (fk_refcols fk) (fk_cols fk) (seen_for log x) d = true <-> satisfied veq log target fk d).
Proof.
  intros Hd. destruct (Hu child fk target Hrefers) as (_ & _ & Hc). destruct (Hc line d Hd) as (vals & Hv & Hl).
  unfold rowb. rewrite (kv_has _ _ _ cols_nonempty Hv). rewrite Hmatch.
  pose proof (has_keys_length _ _ _ Hv) as Hlen.
  assert (Hsat : satisfied veq log target fk d <-> (In PNone vals
     \/ (exists l, vals = [PList l] /\ forall o, In o l -> found veq log target fk [of_opt o]) \/ found veq log target fk vals)).
  { unfold satisfied. split.
    - intros (vals' & Hv' & H). rewrite <- (has_keys_fun _ _ _ _ Hv Hv') in H. exact H.
    - intros H. exists vals. auto. }
  rewrite Hsat. clear Hsat.
  destruct (Nat.eqb_spec (length (fk_cols fk)) 1) as [E1|E1].
  - rewrite E1 in Hlen. destruct vals as [|v [|]]; try discriminate Hlen. cbn [kv_of]. assert (Hl1 : length (fk_refcols fk) = 1%nat) by lia.
    destruct v as [|v|l]; unfold refb, kv_skip; cbn [negb andb orb].
    + split; [intros _; left; left; reflexivity|reflexivity].
    + change (KOne (POne v)) with (kv_of [POne v]). rewrite seen_iff; [|intros l [H|[]]; discriminate|cbn; lia]. split; [auto|].
      intros [[H|[]]|[(l & H & _)|H]]; [discriminate|discriminate|exact H].
    + rewrite forallb_forall. split.
      * intros H. right. left. exists l. split; [reflexivity|]. intros o Ho. apply H in Ho. apply (seen_iff [of_opt o]); [|cbn; lia|exact Ho].
        intros l' [X|[]]. destruct o; discriminate.
      * intros [[H|[]]|[(l' & H & F)|H]].
        -- discriminate.
        -- injection H as <-. intros o Ho. apply (seen_iff [of_opt o]); [|cbn; lia|apply F; exact Ho]. intros l' [X|[]]. destruct o; discriminate.
        -- destruct H as (ln & d' & vals' & _ & _ & H). inversion H; subst. match goal with X : same_value _ (PList _) _ |- _ => destruct X end.
  - destruct Hl as [Hl|Hl]; [contradiction|]. destruct vals as [|v [|v2 vals]]; [|exfalso; apply E1; rewrite <- Hlen; reflexivity|].
    { exfalso. apply cols_nonempty. destruct (fk_cols fk); [reflexivity|discriminate]. }
    cbn [kv_of]. set (vs := v :: v2 :: vals) in *. unfold refb, kv_skip. cbn [negb andb].
    destruct Hl as [Hl|Hl].
    2:{ split; [left; exact Hl|]. intros _. apply orb_true_iff. left. apply existsb_exists. exists PNone. auto. }
    rewrite orb_true_iff. change (KTup vs) with (kv_of vs). rewrite seen_iff; [|exact Hl|lia].
    rewrite existsb_exists. split.
    + intros [(v0 & Hi & Hv0)|H]; [left; destruct v0; try discriminate; exact Hi|auto].
    + intros [H|[(l & H & _)|H]]; [left; exists PNone; auto|discriminate|auto].
Qed.

Lemma ms_iff line d m : In (line, d) (rows_of log child) ->
  forall m', In m' (row_ms veq (fk_refcols fk) (fk_cols fk) (seen_for log x) m d) -> m' = m.
Proof.
  intros _ m'. unfold row_ms. destruct (kv (fk_cols fk) d) as [[|v|l]|l]; [intros []| | |];
    try (destruct (refb _ _ _ _); [intros []|intros [<-|[]]; reflexivity]).
  intros H. apply in_flat_map in H. destruct H as (o & _ & H). destruct (refb _ _ _ _); [destruct H|destruct H as [<-|[]]; reflexivity].
Qed.
Lemma ms_nil d m : rowb veq (fk_refcols fk) (fk_cols fk) (seen_for log x) d = false <-> In m (row_ms veq (fk_refcols fk) (fk_cols fk) (seen_for log x) m d).
Proof.
  unfold rowb, row_ms. destruct (kv (fk_cols fk) d) as [[|v|l]|l].
  - split; [discriminate|intros []].
  - destruct (refb _ _ _ _); cbn; split; auto; try discriminate; intros [].
  - induction l as [|o l IH]; cbn; [split; [discriminate|intros []]|]. destruct (refb _ _ _ _); cbn; [exact IH|]. split; auto.
  - destruct (refb _ _ _ _); cbn; split; auto; try discriminate; intros [].
Qed.

Lemma dup_iff : dupb veq log x = false <->
  (forall i j a b va vb, nth_error (rows_of log target) i = Some a -> nth_error (rows_of log target) j = Some b ->
      has_keys (fk_refcols fk) (snd a) va -> has_keys (fk_refcols fk) (snd b) vb -> same_key veq va vb -> i = j).
Proof.
  unfold dupb. cbn [f_key f_target x fst snd]. destruct (Hu child fk target Hrefers) as (Hne & Ht & _). fold (rows_of log target).
  remember (rows_of log target) as rows eqn:E. clear E.
  assert (Hk : forall a b va vb, In a rows -> In b rows -> has_keys (fk_refcols fk) (snd a) va -> has_keys (fk_refcols fk) (snd b) vb ->
                (kv_eq veq (kv (fk_refcols fk) (snd a)) (kv (fk_refcols fk) (snd b)) = true <-> same_key veq va vb)).
  { intros [la a] [lb b] va vb Ha Hb Hva Hvb. cbn [snd] in *. rewrite (kv_has _ _ _ Hne Hva), (kv_has _ _ _ Hne Hvb). apply kv_eq_of.
    - destruct (Ht la a Ha) as (v & Hv & Hl). rewrite (has_keys_fun _ _ _ _ Hva Hv). exact Hl.
    - rewrite (has_keys_length _ _ _ Hva), (has_keys_length _ _ _ Hvb). reflexivity. }
  assert (Hex : forall a, In a rows -> exists va, has_keys (fk_refcols fk) (snd a) va) by (intros [l a] Ha; destruct (Ht l a Ha) as (v & Hv & _); eauto).
  clear Ht Hu.
  enough (G : forall pre post, rows = pre ++ post ->
     (dup_from veq (fk_refcols fk) (rev (map (fun lr => kv (fk_refcols fk) (snd lr)) pre)) post = false <->
      (forall i j a b va vb, (length pre <= i)%nat -> (j < i)%nat -> nth_error rows i = Some a -> nth_error rows j = Some b ->
        has_keys (fk_refcols fk) (snd a) va -> has_keys (fk_refcols fk) (snd b) vb -> ~ same_key veq va vb))).
  { specialize (G [] rows eq_refl). cbn [map rev] in G. rewrite G. clear G. split.
    - intros H i j a b va vb Ha Hb Hva Hvb Hs. destruct (lt_eq_lt_dec i j) as [[Hlt|Heqij]|Hlt]; [|exact Heqij|].
      + exfalso. eapply (H j i b a vb va); eauto; [cbn; lia|]. eapply same_key_sym; eassumption.
      + exfalso. eapply (H i j a b va vb); eauto. cbn; lia.
    - intros H i j a b va vb _ Hlt Ha Hb Hva Hvb Hs. pose proof (H i j a b va vb Ha Hb Hva Hvb Hs). lia. }
  intros pre post. revert pre. induction post as [|[line d] post IH]; intros pre Er; cbn [dup_from].
  - split; [|reflexivity]. intros _ i j a b va vb Hi _ Ha. exfalso. assert (i < length rows)%nat by (apply nth_error_Some; congruence). rewrite Er, app_nil_r in H. lia.
  - rewrite orb_false_iff. specialize (IH (pre ++ [(line, d)])). rewrite map_app, rev_app_distr in IH. cbn [map rev app snd] in IH.
    rewrite IH by (rewrite Er, <- app_assoc; reflexivity). clear IH. rewrite app_length. cbn [length].
    assert (Hn : nth_error rows (length pre) = Some (line, d)) by (rewrite Er, nth_error_app2, Nat.sub_diag by lia; reflexivity).
    assert (Hind : In (line, d) rows) by (rewrite Er; apply in_elt).
    split.
    + intros [H1 H2] i j a b va vb Hi Hlt Ha Hb Hva Hvb Hs. destruct (Nat.eq_dec i (length pre)) as [->|Hne'].
      * rewrite Hn in Ha. injection Ha as <-.
        assert (X : existsb (kv_eq veq (kv (fk_refcols fk) d)) (rev (map (fun lr : nat * dict V => kv (fk_refcols fk) (snd lr)) pre)) = true); [|congruence].
        apply existsb_exists. exists (kv (fk_refcols fk) (snd b)). split.
        -- rewrite <- in_rev. apply in_map_iff. exists b. split; [reflexivity|]. rewrite Er, nth_error_app1 in Hb by exact Hlt. eapply nth_error_In. exact Hb.
        -- apply (Hk (line, d) b va vb); auto. eapply nth_error_In. exact Hb.
      * eapply (H2 i j a b va vb); eauto. lia.
    + intros H. split.
      * match goal with |- ?e = false => destruct e eqn:Ex end; [|reflexivity]. exfalso. apply existsb_exists in Ex. destruct Ex as (k & Hk1 & Hk2). apply in_rev in Hk1. apply in_map_iff in Hk1.
        destruct Hk1 as (b & <- & Hb). destruct (In_nth_error _ _ Hb) as [j Hj].
        assert (Hjl : (j < length pre)%nat) by (apply nth_error_Some; congruence).
        assert (Hbr : In b rows) by (rewrite Er; apply in_or_app; auto).
        destruct (Hex (line, d) Hind) as [va Hva]. destruct (Hex b Hbr) as [vb Hvb].
        apply (H (length pre) j (line, d) b va vb); auto.
        -- rewrite Er, nth_error_app1 by exact Hjl. exact Hj.
        -- apply (Hk (line, d) b va vb); auto.
      * intros i j a b va vb Hi. apply H. lia.
Qed.
Lemma fk_ok_of : readable log ts -> fk_ok log x.
Proof.
  intros Hr. destruct (Hu child fk target Hrefers) as (Hne & Ht & Hc). destruct (Hr _ _ _ Hrefers) as [Hr1 Hr2]. unfold fk_ok. cbn [f_key f_ref f_target f_child x fst snd].
  split; [exact Hne|]. split; [exact Hmatch|]. split; [exact Hr2|]. split; [exact Hr1|]. split.
  - intros [line d] Hd. cbn [snd]. destruct (Ht line d Hd) as (v & Hv & Hnl). eapply usable_has; eauto.
  - intros [line d] Hd. cbn [snd]. destruct (Hc line d Hd) as (v & Hv & Hnl). rewrite (kv_has _ _ _ cols_nonempty Hv). split; [apply get_kv_iff; [exact cols_nonempty|exact Hv]|].
    destruct Hnl as [Hnl|[Hnl|Hnl]]; [left; exact Hnl|right; left; apply kv_hashable_of; exact Hnl|].
    pose proof (has_keys_length _ _ _ Hv) as Hlen. destruct v as [|v0 [|v1 v]]; [destruct Hnl|left; rewrite <- Hlen; reflexivity|]. right. right.
    unfold kv_skip. rewrite <- Hlen. cbn [length kv_of Nat.eqb negb andb]. apply existsb_exists. exists PNone. auto.
Qed.
End One.
End P.
