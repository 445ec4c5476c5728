(** Proofs for C34. *)
From Verif Require Import PyStr Dsv Json NatLang Column Schema SchemaSpec.
From Coq Require Import Lia.

Section S.
Context {V : Type}.
Implicit Types c : column V.

Lemma nonempty_opt_name c n : nonempty_opt (c_name c) = Some n <-> has_name c n.
Proof.
  unfold has_name, nonempty_opt. destruct (c_name c) as [[|x s]|]; split; try discriminate; intros H.
  - destruct H as [H1 H2]. injection H1 as <-. exfalso; apply H2; reflexivity.
  - injection H as <-. split; [reflexivity|discriminate].
  - destruct H as [H1 H2]. exact H1.
  - destruct H; discriminate.
Qed.
Lemma header_defined c : (exists n, has_name c n) \/ (forall nl, c_titles c = Some nl -> dget dkey_eqb nl None <> Some []) <->
  exists h, header c = Ok h.
Proof.
  unfold header. split.
  - intros [[n [H1 H2]]|H].
    + rewrite H1. destruct n; [exfalso; apply H2; reflexivity|eauto].
    + destruct (c_name c) as [[|x s]|]; [| eauto |];
      unfold first_title, nl_getfirst; (destruct (c_titles c) as [[|t ts]|]; [cbn; eauto| |cbn; eauto]);
      specialize (H _ eq_refl); (destruct (dget dkey_eqb (t :: ts) None) as [[|y l]|]; [exfalso; apply H; reflexivity| |cbn; eauto]);
      cbn; destruct y; eauto.
  - intros [h H]. destruct (c_name c) as [[|x s]|] eqn:E.
    2: { left. exists (x :: s). split; [exact E|discriminate]. }
    all: right; intros nl Hn Hd; unfold first_title, nl_getfirst in H; rewrite Hn in H;
      (destruct nl as [|t ts]; [discriminate Hd|]); rewrite Hd in H; discriminate.
Qed.
Lemma header_set_number c k : (exists h, header c = Ok h) -> exists h, header (set_number c k) = Ok h.
Proof. intros H. apply header_defined in H. apply header_defined. exact H. Qed.

(** ** the loop *)
Definition named_in (names : list pystr) c : Prop := exists n, has_name c n /\ In n names.

Inductive loop_ok : bool -> list pystr -> list (column V) -> Prop :=
| lo_nil v names : loop_ok v names []
| lo_virtual v names c cols : c_virtual c = true -> loop_ok true names cols -> loop_ok v names (c :: cols)
| lo_named names c cols n : c_virtual c = false -> has_name c n -> ~ In n names ->
    loop_ok false (n :: names) cols -> loop_ok false names (c :: cols)
| lo_unnamed names c cols : c_virtual c = false -> (forall n, ~ has_name c n) ->
    loop_ok false names cols -> loop_ok false names (c :: cols).

Lemma has_name_fun c n n' : has_name c n -> has_name c n' -> n = n'.
Proof. intros [H _] [H' _]. rewrite H in H'. injection H' as <-. reflexivity. Qed.
Lemma loop_named_inv v names c cols n : c_virtual c = false -> has_name c n -> loop_ok v names (c :: cols) ->
  v = false /\ ~ In n names /\ loop_ok false (n :: names) cols.
Proof.
  intros Hv Hn H. remember (c :: cols) as l eqn:E. destruct H as [v0 names0|v0 names0 c0 cols0 H1 H2|names0 c0 cols0 n0 H1 H2 H3 H4|names0 c0 cols0 H1 H2 H3];
    [discriminate|injection E as -> ->..].
  - congruence.
  - rewrite (has_name_fun _ _ _ Hn H2). auto.
  - exfalso. eapply H2. exact Hn.
Qed.
Lemma loop_unnamed_inv v names c cols : c_virtual c = false -> (forall n, ~ has_name c n) -> loop_ok v names (c :: cols) ->
  v = false /\ loop_ok false names cols.
Proof.
  intros Hv Hn H. remember (c :: cols) as l eqn:E. destruct H as [v0 names0|v0 names0 c0 cols0 H1 H2|names0 c0 cols0 n0 H1 H2 H3 H4|names0 c0 cols0 H1 H2 H3];
    [discriminate|injection E as -> ->..].
  - congruence.
  - exfalso. eapply Hn. exact H2.
  - auto.
Qed.
Lemma loop_virtual_inv v names c cols : c_virtual c = true -> loop_ok v names (c :: cols) -> loop_ok true names cols.
Proof.
  intros Hv H. remember (c :: cols) as l eqn:E. destruct H as [v0 names0|v0 names0 c0 cols0 H1 H2|names0 c0 cols0 n0 H1 H2 H3 H4|names0 c0 cols0 H1 H2 H3];
    [discriminate|injection E as -> ->..]; [assumption|congruence..].
Qed.

Definition renumbered (i : nat) (cols cols' : list (column V)) : Prop :=
  length cols' = length cols /\ forall j c, nth_error cols j = Some c -> nth_error cols' j = Some (set_number c (S (i + j))).
Lemma renumbered_cons i c cols cols' : renumbered (S i) cols cols' -> renumbered i (c :: cols) (set_number c (S i) :: cols').
Proof.
  intros [H1 H2]. split; [cbn; congruence|]. intros [|j] c0 H; cbn in *.
  - injection H as <-. rewrite Nat.add_0_r. reflexivity.
  - rewrite (H2 _ _ H). repeat f_equal. lia.
Qed.

Lemma loop_sound cols : forall i v seen names r, schema_loop i v seen names cols = Ok r ->
  loop_ok v names cols /\ renumbered i cols (fst r).
Proof.
  induction cols as [|c cols IH]; intros i v seen names r H; cbn [schema_loop] in H.
  - injection H as <-. split; [constructor|]. split; [reflexivity|]. intros [|j] c0 HH; discriminate.
  - destruct (c_virtual c) eqn:Ev; cbn [negb andb] in H.
    + rewrite orb_true_r in H. destruct (schema_loop (S i) true seen names cols) as [r0|] eqn:E; [|discriminate].
      cbn in H. injection H as <-. apply IH in E. destruct E as [E1 E2]. split; [apply lo_virtual; assumption|].
      apply renumbered_cons. exact E2.
    + destruct v; [discriminate|]. cbn [orb] in H. destruct (header c) as [h|]; [|discriminate]. cbn [bind] in H.
      unfold truthy_name in H. destruct (nonempty_opt (c_name c)) as [n|] eqn:En.
      * destruct (str_mem n names) eqn:Em; [discriminate|].
        destruct (schema_loop (S i) false (h :: seen) (n :: names) cols) as [r0|] eqn:E; [|discriminate].
        injection H as <-. apply IH in E. destruct E as [E1 E2]. split; [|apply renumbered_cons; exact E2].
        apply nonempty_opt_name in En. eapply lo_named; try eassumption.
        intros Hin. apply str_mem_In in Hin. congruence.
      * destruct (schema_loop (S i) false (h :: seen) names cols) as [r0|] eqn:E; [|discriminate].
        injection H as <-. apply IH in E. destruct E as [E1 E2]. split; [|apply renumbered_cons; exact E2].
        apply lo_unnamed; try assumption. intros n Hn. apply nonempty_opt_name in Hn. congruence.
Qed.
Lemma loop_total cols : (forall c, In c cols -> exists h, header c = Ok h) -> forall i v seen names,
  (loop_ok v names cols -> exists r, schema_loop i v seen names cols = Ok r)
  /\ (schema_loop i v seen names cols = Err ValueError \/ exists r, schema_loop i v seen names cols = Ok r).
Proof.
  induction cols as [|c cols IH]; intros Hh i v seen names; cbn [schema_loop].
  - split; [intros _|right]; eexists; reflexivity.
  - assert (Hh' : forall c, In c cols -> exists h, header c = Ok h) by (intros c0 H0; apply Hh; right; exact H0).
    destruct (Hh c (or_introl eq_refl)) as [h Eh].
    specialize (IH Hh'). destruct (c_virtual c) eqn:Ev; cbn [negb andb].
    + rewrite orb_true_r. destruct (IH (S i) true seen names) as [I1 I2]. split.
      * intros H. destruct (I1 (loop_virtual_inv _ _ _ _ Ev H)) as [r ->]. eexists; reflexivity.
      * destruct I2 as [->|[r ->]]; [left; reflexivity|right; eexists; reflexivity].
    + assert (Hdec : (exists n, has_name c n) \/ forall n, ~ has_name c n).
      { destruct (nonempty_opt (c_name c)) as [n|] eqn:En; [left; exists n; apply nonempty_opt_name; exact En|].
        right. intros n Hn. apply nonempty_opt_name in Hn. congruence. }
      destruct v.
      { split; [|left; reflexivity]. intros H. exfalso. destruct Hdec as [[n Hn]|Hn].
        - apply (loop_named_inv _ _ _ _ _ Ev Hn) in H. destruct H; discriminate.
        - apply (loop_unnamed_inv _ _ _ _ Ev Hn) in H. destruct H; discriminate. }
      cbn [orb]. rewrite Eh. cbn [bind].
      unfold truthy_name. destruct (nonempty_opt (c_name c)) as [n|] eqn:En.
      * pose proof (proj1 (nonempty_opt_name c n) En) as Hn.
        destruct (str_mem n names) eqn:Em.
        { split; [|left; reflexivity]. intros H. exfalso. apply str_mem_In in Em.
          apply (loop_named_inv _ _ _ _ _ Ev Hn) in H. tauto. }
        destruct (IH (S i) false (h :: seen) (n :: names)) as [I1 I2]. split.
        { intros H. apply (loop_named_inv _ _ _ _ _ Ev Hn) in H. destruct H as (_ & _ & H).
          destruct (I1 H) as [r ->]. eexists; reflexivity. }
        destruct I2 as [->|[r ->]]; [left; reflexivity|right; eexists; reflexivity].
      * destruct (IH (S i) false (h :: seen) names) as [I1 I2]. split.
        { intros H. destruct Hdec as [[n Hn]|Hn]; [apply nonempty_opt_name in Hn; congruence|].
          apply (loop_unnamed_inv _ _ _ _ Ev Hn) in H. destruct (I1 (proj2 H)) as [r ->]. eexists; reflexivity. }
        destruct I2 as [->|[r ->]]; [left; reflexivity|right; eexists; reflexivity].
Qed.

(** ** loop_ok is the property *)
Definition fresh (names : list pystr) (cols : list (column V)) : Prop :=
  forall c n, In c cols -> c_virtual c = false -> has_name c n -> ~ In n names.
Lemma virtual_last_cons c cols : virtual_last (c :: cols) <->
  virtual_last cols /\ (c_virtual c = true -> forall c', In c' cols -> c_virtual c' = true).
Proof.
  split.
  - intros H. split.
    + intros b x m x' a E. apply (H (c :: b) x m x' a). rewrite E. reflexivity.
    + intros Hc c' Hin. apply in_split in Hin. destruct Hin as [m [a ->]]. apply (H [] c m c' a); [reflexivity|exact Hc].
  - intros [H1 H2] b x m x' a E Hx. destruct b as [|b0 b]; cbn in E; injection E as -> ->.
    + apply H2; [exact Hx|]. apply in_or_app. right. left. reflexivity.
    + eapply H1; [reflexivity|exact Hx].
Qed.
Lemma distinct_names_cons c cols : distinct_names (c :: cols) <->
  distinct_names cols /\ (forall n c', c_virtual c = false -> has_name c n -> In c' cols -> c_virtual c' = false -> ~ has_name c' n).
Proof.
  split.
  - intros H. split.
    + intros b x m x' a n E. apply (H (c :: b) x m x' a n). rewrite E. reflexivity.
    + intros n c' Hv Hc Hin Hv' Hc'. apply in_split in Hin. destruct Hin as [m [a ->]].
      exact (H [] c m c' a n eq_refl Hv Hv' Hc Hc').
  - intros [H1 H2] b x m x' a n E Hv Hv' Hx Hx'. destruct b as [|b0 b]; cbn in E; injection E as -> ->.
    + eapply H2; try eassumption. apply in_or_app. right. left. reflexivity.
    + eapply H1; [reflexivity|..]; eassumption.
Qed.
Lemma loop_ok_iff cols : forall v names, loop_ok v names cols <->
  virtual_last cols /\ distinct_names cols /\ (v = true -> forall c, In c cols -> c_virtual c = true) /\ fresh names cols.
Proof.
  induction cols as [|c cols IH]; intros v names.
  - split; [intros _|constructor]. repeat split.
    + intros b x m x' a E. destruct b; discriminate.
    + intros b x m x' a n E. destruct b; discriminate.
    + intros _ c [].
    + intros c n [].
  - rewrite virtual_last_cons, distinct_names_cons. split.
    + intros H. remember (c :: cols) as l eqn:E.
      destruct H as [v0 names0|v0 names0 c0 cols0 H1 H2|names0 c0 cols0 n H1 H3 H2 H4|names0 c0 cols0 H1 H3 H4];
        [discriminate|injection E as -> ->..].
      * apply IH in H2. destruct H2 as (A & B & C & D). specialize (C eq_refl).
        split; [split; [exact A|intros _; exact C]|]. split; [split; [exact B|]|].
        { intros n c' Hv. congruence. }
        split; [intros _ x [<-|Hx]; auto|]. intros x n [<-|Hx] Hv; [congruence|]. apply D; assumption.
      * apply IH in H4. destruct H4 as (A & B & C & D).
        split; [split; [exact A|congruence]|]. split; [split; [exact B|]|].
        { intros n0 c' _ Hn Hin Hv' Hn'. rewrite (has_name_fun _ _ _ Hn H3) in Hn'.
          eapply D; try eassumption. left. reflexivity. }
        split; [discriminate|]. intros x m [<-|Hx] Hv Hm.
        { rewrite (has_name_fun _ _ _ Hm H3). assumption. }
        intros Hin. eapply D; try eassumption. right. exact Hin.
      * apply IH in H4. destruct H4 as (A & B & C & D).
        split; [split; [exact A|congruence]|]. split; [split; [exact B|]|].
        { intros n c' _ Hn. exfalso. eapply H3; exact Hn. }
        split; [discriminate|]. intros x m [<-|Hx] Hv Hm; [exfalso; eapply H3; exact Hm|]. eapply D; eassumption.
    + intros ((A & A') & (B & B') & C & D).
      destruct (c_virtual c) eqn:Ev.
      * apply lo_virtual; [exact Ev|]. apply IH. split; [exact A|]. split; [exact B|]. split; [intros _; apply A'; reflexivity|].
        intros x n Hx. apply D. right. exact Hx.
      * destruct v; [exfalso; rewrite (C eq_refl c (or_introl eq_refl)) in Ev; discriminate|].
        destruct (nonempty_opt (c_name c)) as [n|] eqn:En.
        { apply nonempty_opt_name in En. eapply lo_named; try eassumption.
          - eapply D; [left; reflexivity|assumption|exact En].
          - apply IH. split; [exact A|]. split; [exact B|]. split; [discriminate|].
            intros x m Hx Hv Hm [->|Hin].
            + eapply B'; try eassumption. reflexivity.
            + eapply D; [right; exact Hx|..]; eassumption. }
        { apply lo_unnamed; try assumption.
          - intros n Hn. apply nonempty_opt_name in Hn. congruence.
          - apply IH. split; [exact A|]. split; [exact B|]. split; [discriminate|]. intros x m Hx. apply D. right. exact Hx. }
Qed.

(** ** the primary key *)
Lemma renumbered_in cols cols' i c : renumbered i cols cols' -> In c cols' -> exists c0 k, In c0 cols /\ c = set_number c0 k.
Proof.
  intros [H1 H2] Hin. apply In_nth_error in Hin. destruct Hin as [j Hj].
  destruct (nth_error cols j) as [c0|] eqn:E.
  - pose proof (H2 _ _ E) as H. rewrite Hj in H. injection H as ->. exists c0, (S (i + j)). split; [|reflexivity].
    eapply nth_error_In; exact E.
  - apply nth_error_None in E. assert (nth_error cols' j = None) by (apply nth_error_None; lia). congruence.
Qed.
Lemma columndict_total cols : (forall c, In c cols -> exists h, header c = Ok h) -> exists d, columndict cols = Ok d.
Proof.
  intros H. unfold columndict. assert (E : exists hs, mapM header cols = Ok hs).
  { induction cols as [|c cols IH]; [eexists; reflexivity|]. cbn. destruct (H c (or_introl eq_refl)) as [h ->]. cbn.
    destruct IH as [hs ->]; [intros x Hx; apply H; right; exact Hx|]. eexists; reflexivity. }
  destruct E as [hs ->]. eexists; reflexivity.
Qed.
Lemma check_pk_total cols : (forall c, In c cols -> exists h, header c = Ok h) ->
  forall pk acc, exists r, check_pk cols pk acc = Ok r.
Proof.
  intros H. destruct (columndict_total cols H) as [d Hd].
  induction pk as [|k pk IH]; intros acc; cbn [check_pk]; [eexists; reflexivity|].
  rewrite Hd. cbn [bind]. destruct (dget str_eqb d k) as [c|]; [|apply IH].
  destruct (truthy_name (c_name c)); [apply IH|]. destruct (IH None) as [r ->]. eexists; reflexivity.
Qed.

Theorem schema_init_ok (s : schema V) s' w : schema_init s = Ok (s', w) ->
  virtual_last (s_columns s) /\ distinct_names (s_columns s) /\ numbered (s_columns s) (s_columns s').
Proof.
  unfold schema_init. destruct (schema_loop 0 false [] [] (s_columns s)) as [r|] eqn:E; [|discriminate]. cbn [bind].
  destruct (check_pk (fst r) (getdef (s_primaryKey s) []) (s_primaryKey s)) as [p|]; [|discriminate]. cbn [bind].
  intros H. injection H as <- _. apply loop_sound in E. destruct E as [E1 E2]. apply loop_ok_iff in E1.
  destruct E1 as (A & B & _). repeat split; try assumption; apply E2.
Qed.
Theorem schema_init_total (s : schema V) : headers_defined (s_columns s) ->
  (virtual_last (s_columns s) /\ distinct_names (s_columns s) -> exists r, schema_init s = Ok r)
  /\ (~ (virtual_last (s_columns s) /\ distinct_names (s_columns s)) -> schema_init s = Err ValueError).
Proof.
  intros Hd. assert (Hh : forall c, In c (s_columns s) -> exists h, header c = Ok h).
  { intros c Hc. apply header_defined. apply Hd. exact Hc. }
  destruct (loop_total (s_columns s) Hh 0 false [] []) as [T1 T2]. unfold schema_init. split.
  - intros [A B]. destruct T1 as [r Hr].
    { apply loop_ok_iff. repeat split; try assumption; [discriminate|]. intros c n _ _ _ []. }
    rewrite Hr. cbn [bind]. apply loop_sound in Hr. destruct Hr as [_ Hr].
    destruct (check_pk_total (fst r)) with (pk := getdef (s_primaryKey s) []) (acc := s_primaryKey s) as [p ->].
    { intros c Hc. destruct (renumbered_in _ _ _ _ Hr Hc) as (c0 & k & Hc0 & ->). apply header_set_number. apply Hh. exact Hc0. }
    eexists; reflexivity.
  - intros Hn. destruct T2 as [->|[r Hr]]; [reflexivity|]. exfalso. apply Hn. apply loop_sound in Hr. destruct Hr as [Hr _].
    apply loop_ok_iff in Hr. tauto.
Qed.
End S.
