(** Proofs about Column.read/write and inheritance. *)
From Verif Require Import PyStr Dsv Json NatLang Column ColumnSpec.
From Coq Require Import Lia.

(** ** str.split *)
Lemma split_aux_skip sep cur s k : split_aux sep cur s k = split_aux sep cur (skipn k s) 0.
Proof.
  revert s; induction k as [|k IH]; intros [|c s]; try reflexivity. cbn [split_aux skipn]. apply IH.
Qed.
Lemma split_aux_pass sep : forall a cur rest,
  (forall a1 a2, a = a1 ++ a2 -> a2 <> [] -> startswith sep (a2 ++ rest) = false) ->
  split_aux sep cur (a ++ rest) 0 = split_aux sep (cur ++ a) rest 0.
Proof.
  induction a as [|c a IH]; intros cur rest H.
  - rewrite app_nil_r. reflexivity.
  - assert (H0 := H [] (c :: a) eq_refl ltac:(discriminate)). cbn [app] in H0. cbn [app split_aux]. rewrite H0.
    rewrite IH.
    + rewrite <- app_assoc. reflexivity.
    + intros a1 a2 -> Hne. apply (H (c :: a1) a2); [reflexivity|exact Hne].
Qed.
Lemma skipn_all_app {A} (a b : list A) : skipn (length a) (a ++ b) = b.
Proof. induction a; cbn; auto. Qed.
Lemma split_aux_sep sep cur b : sep <> [] -> split_aux sep cur (sep ++ b) 0 = cur :: split_aux sep [] b 0.
Proof.
  intros Hs. destruct sep as [|c sep]; [congruence|]. cbn [app split_aux].
  assert (startswith (c :: sep) (c :: sep ++ b) = true) as ->.
  { apply startswith_spec. exists b. reflexivity. }
  cbn [List.length]. rewrite Nat.sub_succ, Nat.sub_0_r, split_aux_skip, skipn_all_app. reflexivity.
Qed.

Lemma parts_split sep : sep <> [] -> forall s ps, parts_of sep s ps -> split sep s = ps.
Proof.
  intros Hs s ps H. unfold split. induction H as [s Hno|a b ps Hmin Hb IH].
  - rewrite <- (app_nil_r s). rewrite split_aux_pass.
    + rewrite app_nil_r. reflexivity.
    + intros a1 a2 E _. rewrite app_nil_r. destruct (startswith sep a2) eqn:E'; [|reflexivity].
      apply startswith_spec in E'. destruct E' as [r ->]. exfalso. apply (Hno a1 r), E.
  - rewrite split_aux_pass.
    + cbn [app]. rewrite split_aux_sep by exact Hs. rewrite IH. reflexivity.
    + intros a1 a2 E Hne. destruct (startswith sep (a2 ++ sep ++ b)) eqn:E'; [|reflexivity].
      apply startswith_spec in E'. destruct E' as [r Hr]. exfalso.
      specialize (Hmin a1 r). subst a. rewrite <- app_assoc, Hr in Hmin. specialize (Hmin eq_refl).
      rewrite app_length in Hmin. destruct a2; [congruence|]. cbn in Hmin. lia.
Qed.

Lemma leftmost (sep : pystr) : sep <> [] -> forall s : pystr,
  (forall a b, s <> a ++ sep ++ b)
  \/ exists a b, s = a ++ sep ++ b /\ forall a' b', s = a' ++ sep ++ b' -> (length a <= length a')%nat.
Proof.
  intros Hs. induction s as [|c s IH].
  - left. intros a b H. destruct a; destruct sep; try discriminate; congruence.
  - destruct (startswith sep (c :: s)) eqn:E.
    + apply startswith_spec in E. destruct E as [r E]. right. exists [], r. split; [exact E|]. intros; cbn; lia.
    + destruct IH as [Hno|(a & b & -> & Hmin)].
      * left. intros [|x a] b H.
        -- enough (startswith sep (c :: s) = true) by congruence. apply startswith_spec. exists b. exact H.
        -- injection H as _ H. exact (Hno a b H).
      * right. exists (c :: a), b. split; [reflexivity|]. intros [|x a'] b' H.
        -- enough (startswith sep (c :: a ++ sep ++ b) = true) by congruence.
           apply startswith_spec. exists b'. exact H.
        -- injection H as _ H. cbn. specialize (Hmin a' b' H). lia.
Qed.
Lemma split_parts sep s : sep <> [] -> parts_of sep s (split sep s).
Proof.
  intros Hs. assert (H : exists ps, parts_of sep s ps).
  { remember (length s) as n eqn:E. assert (Hn : (length s <= n)%nat) by lia. clear E. revert s Hn.
    induction n as [|n IH]; intros s Hn.
    - destruct s; [|cbn in Hn; lia]. exists [[]]. constructor. intros a b H. destruct a; destruct sep; try discriminate; congruence.
    - destruct (leftmost sep Hs s) as [Hno|(a & b & -> & Hmin)].
      + exists [s]. constructor. exact Hno.
      + destruct (IH b) as [ps Hps].
        * rewrite !app_length in Hn. destruct sep; [congruence|]. cbn in Hn. lia.
        * exists (a :: ps). constructor; assumption. }
  destruct H as [ps H]. rewrite (parts_split sep Hs s ps H). exact H.
Qed.
Lemma parts_of_iff sep s ps : sep <> [] -> parts_of sep s ps <-> split sep s = ps.
Proof. intros Hs. split; [apply parts_split, Hs|intros <-; apply split_parts, Hs]. Qed.

(** ** Column.read (C24) *)
Section Read.
Context {V : Type} (sc : scalars V).
Implicit Types st : @settings V.

Lemma with_default_iff st s s' : with_default st s s' <-> or_default st s = s'.
Proof.
  unfold with_default, or_default. destruct s; split.
  - intros [[_ H]|[H _]]; congruence.
  - intros <-. left; split; reflexivity.
  - intros [[H _]|[_ H]]; congruence.
  - intros <-. right; split; [discriminate|reflexivity].
Qed.
Lemma value_reads_iff st s r : value_reads sc st s r <-> read_elem sc (st_datatype st) (nulled st s) = r.
Proof.
  unfold nulled, read_elem. split.
  - intros H. destruct H as [s H|s Hn Ht|s t v Hn Ht Hv|s t e Hn Ht Hv].
    + apply str_mem_In in H. rewrite H. reflexivity.
    + apply str_mem_false in Hn. rewrite Hn, Ht. reflexivity.
    + apply str_mem_false in Hn. rewrite Hn, Ht, Hv. reflexivity.
    + apply str_mem_false in Hn. rewrite Hn, Ht, Hv. reflexivity.
  - destruct (str_mem s (st_null st)) eqn:E.
    + apply str_mem_In in E. intros <-. constructor; exact E.
    + apply str_mem_false in E. destruct (st_datatype st) as [t|] eqn:Et.
      * destruct (dt_reads t s) as [v|e] eqn:Ev; cbn; intros <-; [eapply vr_parsed|eapply vr_invalid]; eassumption.
      * intros <-. apply vr_string; assumption.
Qed.
Lemma Forall2_map_eq {A B} (f : A -> B) l m : Forall2 (fun a b => f a = b) l m <-> map f l = m.
Proof.
  split.
  - induction 1; cbn; congruence.
  - intros <-. induction l; cbn; constructor; auto.
Qed.
Lemma Forall2_iff {A B} (R S : A -> B -> Prop) : (forall a b, R a b <-> S a b) -> forall l m, Forall2 R l m <-> Forall2 S l m.
Proof. intros H l m. split; induction 1; constructor; firstorder. Qed.

Lemma mapM_Err_iff {A B} (f : A -> res B) l e :
  mapM f l = Err e <-> exists good bad rest vals, l = good ++ bad :: rest /\ mapM f good = Ok vals /\ f bad = Err e.
Proof.
  split.
  - induction l as [|x l IH]; cbn; [discriminate|]. destruct (f x) as [y|e'] eqn:E; cbn.
    + destruct (mapM f l) as [ys|e''] eqn:E2; cbn; [discriminate|]. intros [= ->].
      destruct (IH eq_refl) as (good & bad & rest & vals & -> & Hg & Hb).
      exists (x :: good), bad, rest, (y :: vals). cbn. rewrite E, Hg. cbn. auto.
    + intros [= ->]. exists [], x, l, []. cbn. auto.
  - intros (good & bad & rest & vals & -> & Hg & Hb). rewrite mapM_app, Hg. cbn. rewrite Hb. reflexivity.
Qed.

Lemma list_reads_iff st parts r :
  mapM (read_elem sc (st_datatype st)) (map (fun vv => nulled st (or_default st vv)) parts) = r <->
  (match r with
   | Ok vals => exists parts', Forall2 (with_default st) parts parts' /\ Forall2 (fun p v => value_reads sc st p (Ok v)) parts' vals
   | Err e => exists parts' good vals bad rest, Forall2 (with_default st) parts parts' /\ parts' = good ++ bad :: rest
              /\ Forall2 (fun p v => value_reads sc st p (Ok v)) good vals /\ value_reads sc st bad (Err e)
   end).
Proof.
  assert (Hd : forall p p', Forall2 (with_default st) p p' <-> map (or_default st) p = p').
  { intros p p'. rewrite <- Forall2_map_eq. apply Forall2_iff, with_default_iff. }
  assert (Hm : mapM (read_elem sc (st_datatype st)) (map (fun vv => nulled st (or_default st vv)) parts)
               = mapM (fun p => read_elem sc (st_datatype st) (nulled st p)) (map (or_default st) parts)).
  { rewrite !mapM_map. reflexivity. }
  assert (Hok : forall p v, mapM (fun p => read_elem sc (st_datatype st) (nulled st p)) p = Ok v
                 <-> Forall2 (fun p v => value_reads sc st p (Ok v)) p v).
  { intros p v. rewrite mapM_Ok_iff. apply Forall2_iff. intros a b. symmetry. apply value_reads_iff. }
  rewrite Hm. destruct r as [vals|e].
  - rewrite Hok. split.
    + intros H. exists (map (or_default st) parts). split; [apply Hd; reflexivity|exact H].
    + intros (p' & H1 & H2). apply Hd in H1. rewrite H1. exact H2.
  - rewrite mapM_Err_iff. split.
    + intros (good & bad & rest & vals & E & Hg & Hb).
      exists (map (or_default st) parts), good, vals, bad, rest.
      repeat split; [apply Hd; reflexivity|exact E|apply Hok; exact Hg|apply value_reads_iff; exact Hb].
    + intros (p' & good & vals & bad & rest & H1 & E & Hg & Hb). apply Hd in H1. rewrite H1.
      exists good, bad, rest, vals. repeat split; [exact E|apply Hok; exact Hg|apply value_reads_iff; exact Hb].
Qed.

Lemma if_swap {A B} (c : bool) (f : A -> B) x y : (if c then f x else f y) = f (if c then x else y).
Proof. destruct c; reflexivity. Qed.

Theorem col_read_spec st (text : pystr) (r : res (pyval V)) : st_separator st <> Some [] ->
  fst (col_read sc true st text) = r <-> cell_reads sc st text r.
Proof.
  intros Hsep. unfold col_read. cbn zeta.
  set (v := or_default st text).
  assert (Hv : with_default st text v) by (apply with_default_iff; reflexivity).
  assert (Hu : forall s, with_default st text s -> s = v).
  { intros s H. apply with_default_iff in H. symmetry. exact H. }
  destruct (st_required st && str_mem v (st_null st)) eqn:Er.
  - apply andb_true_iff in Er. destruct Er as [Er Em]. apply str_mem_In in Em. cbn [fst]. split.
    + intros <-. eapply cr_missing; eassumption.
    + intros H. destruct H as [s Hs _ _|s r Hs Hn _ _|Hs Hn _|s Hs Hq _ _ _|s sep ps ps' vals Hs _ _ Hn _ _ _|s sep ps ps' g vals b rest e Hs _ _ Hn _ _ _ _ _];
        try (apply Hu in Hs; subst s); try reflexivity; try (exfalso; tauto); try congruence.
      apply Hu in Hs. rewrite <- Hs in Em. exfalso; tauto.
  - assert (Hreq : ~ (st_required st = true /\ In v (st_null st))).
    { intros [H1 H2]. apply str_mem_In in H2. rewrite H1, H2 in Er. discriminate. }
    destruct (st_separator st) as [sep|] eqn:Es.
    + assert (Hse : sep <> []) by (intros ->; apply Hsep; reflexivity).
      assert (Hcase : (v = [] /\ fst (match v with [] => (Ok (PList (V:=V) []), false) | _ => (Err ValueError, false) end) = Ok (PList [])) \/ v <> []).
      { destruct v; [left; auto|right; discriminate]. }
      destruct Hcase as [[Ev _]|Ev].
      * rewrite Ev in *. cbn [fst]. split.
        -- intros <-. apply cr_empty; [exact Hv|exact Hreq|congruence].
        -- intros H. destruct H as [s Hs Hr Hi|s r Hs Hn Hx _|Hs Hn _|s Hs Hq _ Hne _|s sep' ps ps' vals Hs _ Hne Hn _ _ _|s sep' ps ps' g vals b rest e Hs _ Hne Hn _ _ _ _ _];
             try (apply Hu in Hs; subst s); try congruence; try (exfalso; tauto).
      * assert (Hm : forall (A : Type) (x y : A), match v with [] => x | _ => y end = y) by (intros A x y; destruct v; [congruence|reflexivity]).
        rewrite Hm. destruct (str_mem v (st_null st)) eqn:Em.
        -- apply str_mem_In in Em. cbn [fst]. split.
           ++ intros <-. eapply cr_list_null; try eassumption; [|congruence]. destruct (st_required st); tauto.
           ++ intros H. destruct H as [s Hs Hr Hi|s r Hs Hn Hx _|Hs Hn _|s Hs Hq _ Hne _|s sep' ps ps' vals Hs _ Hne Hn _ _ _|s sep' ps ps' g vals b rest e Hs _ Hne Hn _ _ _ _ _];
                try (apply Hu in Hs); try subst s; try congruence; try (exfalso; tauto).
        -- apply str_mem_false in Em.
           assert (Hl := list_reads_iff st (split sep v)).
           destruct (mapM (read_elem sc (st_datatype st)) (map (fun vv => nulled st (or_default st vv)) (split sep v))) as [vals|e] eqn:El.
           ++ cbn [fst]. split.
              ** intros <-. destruct (proj1 (Hl _) eq_refl) as (ps' & H1 & H2).
                 eapply cr_list; try eassumption. apply split_parts, Hse.
              ** intros H. destruct H as [s Hs Hr Hi|s r Hs Hn Hx _|Hs Hn _|s Hs Hq _ Hne Hi|s sep' ps ps' vals' Hs E1 Hne Hn Hp H1 H2|s sep' ps ps' g vals' b rest e Hs E1 Hne Hn Hp H1 E2 H2 H3];
                   try (apply Hu in Hs); try subst s; try congruence; try (exfalso; tauto).
                 --- replace sep' with sep in Hp by congruence. apply parts_split in Hp; [|exact Hse]. subst ps.
                     assert (Hx : Ok vals = Ok vals') by (apply Hl; eauto). congruence.
                 --- replace sep' with sep in Hp by congruence. apply parts_split in Hp; [|exact Hse]. subst ps.
                     assert (Hx : Ok vals = Err e) by (apply Hl; exists ps', g, vals', b, rest; auto). discriminate.
           ++ assert (Hf : fst (match e with ValueError => (Err ValueError, false) | _ => (Err e, false) end) = @Err (pyval V) e) by (destruct e; reflexivity).
              rewrite Hf. split.
              ** intros <-. destruct (proj1 (Hl _) eq_refl) as (ps' & g & vals & b & rest & H1 & H2 & H3 & H4).
                 eapply cr_list_invalid; try eassumption. apply split_parts, Hse.
              ** intros H. destruct H as [s Hs Hr Hi|s r Hs Hn Hx _|Hs Hn _|s Hs Hq _ Hne Hi|s sep' ps ps' vals' Hs E1 Hne Hn Hp H1 H2|s sep' ps ps' g vals' b rest e' Hs E1 Hne Hn Hp H1 E2 H2 H3];
                   try (apply Hu in Hs); try subst s; try congruence; try (exfalso; tauto).
                 --- replace sep' with sep in Hp by congruence. apply parts_split in Hp; [|exact Hse]. subst ps.
                     assert (Hx : Err e = Ok vals') by (apply Hl; eauto). discriminate.
                 --- replace sep' with sep in Hp by congruence. apply parts_split in Hp; [|exact Hse]. subst ps.
                     assert (Hx : @Err (list (option V)) e = Err e') by (apply Hl; exists ps', g, vals', b, rest; auto). congruence.
    + cbn [fst]. assert (Hr := value_reads_iff st v).
      destruct (read_elem sc (st_datatype st) (nulled st v)) as [o|e] eqn:Ee; cbn [bind].
      * split.
        -- intros <-. specialize (Hr (Ok o)). assert (Hx := cr_scalar sc st text v (Ok o) Hv Hreq Es (proj2 Hr eq_refl)).
           destruct o; exact Hx.
        -- intros H. destruct H as [s Hs Hq Hi|s r Hs Hn Hx Hw|Hs Hn Hx|s Hs Hq Hx Hne Hi|s sep' ps ps' vals' Hs E1 Hne Hn Hp H1 H2|s sep' ps ps' g vals' b rest e' Hs E1 Hne Hn Hp H1 E2 H2 H3];
             try (apply Hu in Hs); try subst s; try congruence; try (exfalso; tauto).
           apply Hr in Hw. subst r. destruct o; reflexivity.
      * split.
        -- intros <-. specialize (Hr (Err e)). exact (cr_scalar sc st text v (Err e) Hv Hreq Es (proj2 Hr eq_refl)).
        -- intros H. destruct H as [s Hs Hq Hi|s r Hs Hn Hx Hw|Hs Hn Hx|s Hs Hq Hx Hne Hi|s sep' ps ps' vals' Hs E1 Hne Hn Hp H1 H2|s sep' ps ps' g vals' b rest e' Hs E1 Hne Hn Hp H1 E2 H2 H3];
             try (apply Hu in Hs); try subst s; try congruence; try (exfalso; tauto).
           apply Hr in Hw. subst r. reflexivity.
Qed.
End Read.
