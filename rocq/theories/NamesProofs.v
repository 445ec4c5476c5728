(** C13: slug, normalize_name, NamedTupleReader. *)
From Verif Require Import PyStr Dsv DsvSpec DsvProofs4 Names NamesSpec.
From Coq Require Import ZifyBool ZifyN.

Lemma is_digit_iff c : is_digit c = true <-> 48 <= c <= 57.
Proof. unfold is_digit; lia. Qed.
Lemma is_letter_iff c : is_letter c = true <-> 65 <= c <= 90 \/ 97 <= c <= 122.
Proof. unfold is_letter, is_upper, is_lower; lia. Qed.
Lemma alnum_iff c : is_letter c || is_digit c = true <-> alnum c.
Proof. unfold alnum, is_letter, is_upper, is_lower, is_digit; lia. Qed.

(** ** the ASCII characters, one by one *)
Definition below (n : nat) : list N := map N.of_nat (seq 0 n).
Lemma below_In n c : c < N.of_nat n -> In c (below n).
Proof. intros H. apply in_map_iff. exists (N.to_nat c). split; [lia|]. apply in_seq. lia. Qed.
Lemma ascii_classes c : c < 128 ->
  char_mem c punctuation = false -> is_space c = false ->
  alnum c \/ bad_control c.
Proof.
  intros Hc Hp Hs.
  assert (H : forallb (fun c => char_mem c punctuation || is_space c || is_letter c || is_digit c
                               || (c <=? 8) || ((14 <=? c) && (c <=? 27)) || (c =? 127)) (below 128) = true)
    by (vm_compute; reflexivity).
  rewrite forallb_forall in H. specialize (H c (below_In 128 c Hc)). rewrite Hp, Hs in H.
  unfold alnum, bad_control, is_letter, is_upper, is_lower, is_digit in *. lia.
Qed.
Lemma alnum_plain c : alnum c -> char_mem c punctuation = false /\ is_space c = false /\ c < 128.
Proof.
  intros Ha. assert (Hc : c < 128) by (unfold alnum in Ha; lia).
  assert (H : forallb (fun c => negb (is_letter c || is_digit c) || (negb (char_mem c punctuation) && negb (is_space c))) (below 128) = true)
    by (vm_compute; reflexivity).
  rewrite forallb_forall in H. specialize (H c (below_In 128 c Hc)).
  apply alnum_iff in Ha. rewrite Ha in H. cbn in H.
  apply andb_true_iff in H. destruct H as [H1 H2].
  apply negb_true_iff in H1, H2. auto.
Qed.
Lemma control_plain c : bad_control c -> char_mem c punctuation = false /\ is_space c = false /\ c < 128.
Proof.
  intros Ha. assert (Hc : c < 128) by (unfold bad_control in Ha; lia).
  assert (H : forallb (fun c => negb ((c <=? 8) || ((14 <=? c) && (c <=? 27)) || (c =? 127)) || (negb (char_mem c punctuation) && negb (is_space c))) (below 128) = true)
    by (vm_compute; reflexivity).
  rewrite forallb_forall in H. specialize (H c (below_In 128 c Hc)).
  assert (Hb : (c <=? 8) || ((14 <=? c) && (c <=? 27)) || (c =? 127) = true) by (unfold bad_control in Ha; lia).
  rewrite Hb in H. cbn in H. apply andb_true_iff in H. destruct H as [H1 H2].
  apply negb_true_iff in H1, H2. auto.
Qed.
Lemma control_not_alnum c : bad_control c -> ~ alnum c.
Proof. unfold bad_control, alnum; lia. Qed.

Lemma alnum_space_iff c : alnum_space c = true <-> c = 32 \/ alnum c.
Proof. unfold alnum_space, alnum, is_letter, is_upper, is_lower, is_digit, SPACE; lia. Qed.

(** what slug filters before the check *)
Definition slug_pre (U : unicode) (lw : bool) (s : pystr) : pystr :=
  let r := filter (fun c => negb (is_mn U c)) (nfd U s) in
  if lw then py_lower U r else r.

Lemma squeeze_In b s c : In c (squeeze_spaces b s) -> c = SPACE \/ (In c s /\ is_space c = false).
Proof.
  revert b; induction s as [|x s IH]; intros b H; cbn in H; [contradiction|].
  destruct (is_space x) eqn:E.
  - apply in_app_or in H. destruct H as [H|H].
    + destruct b; cbn in H; [contradiction|]. destruct H as [<-|[]]. left; reflexivity.
    + apply IH in H. destruct H as [H|[H H']]; [left; exact H|right; split; [right; exact H|exact H']].
  - destruct H as [<-|H]; [right; split; [left; reflexivity|exact E]|].
    apply IH in H. destruct H as [H|[H H']]; [left; exact H|right; split; [right; exact H|exact H']].
Qed.

Definition slug_filtered (U : unicode) (rw lw : bool) (s : pystr) : pystr :=
  let r := filter (fun c => negb (char_mem c punctuation)) (slug_pre U lw s) in
  let r := if rw then filter (fun c => negb (is_space c)) r else squeeze_spaces false r in
  filter (fun c => c <? 128) r.
Lemma slug_unfold U rw lw s :
  slug U rw lw s = if slug_ok (slug_filtered U rw lw s) then Ok (slug_filtered U rw lw s) else Err AssertionError.
Proof. reflexivity. Qed.

Lemma slug_filtered_chars U rw lw s c :
  In c (slug_filtered U rw lw s) ->
  (rw = false /\ c = SPACE) \/ ((alnum c \/ bad_control c) /\ In c (slug_pre U lw s)).
Proof.
  unfold slug_filtered. intros H. apply filter_In in H. destruct H as [H Hc]. apply N.ltb_lt in Hc.
  destruct rw.
  - apply filter_In in H. destruct H as [H Hs]. apply negb_true_iff in Hs.
    apply filter_In in H. destruct H as [H Hp]. apply negb_true_iff in Hp.
    right. split; [apply ascii_classes; assumption|exact H].
  - apply squeeze_In in H. destruct H as [H|[H Hs]]; [left; auto|].
    apply filter_In in H. destruct H as [H Hp]. apply negb_true_iff in Hp.
    right. split; [apply ascii_classes; assumption|exact H].
Qed.

Lemma squeeze_keeps s c b : In c s -> is_space c = false -> In c (squeeze_spaces b s).
Proof.
  revert b; induction s as [|x s IH]; intros b Hin Hs; [destruct Hin|]. destruct Hin as [->|H]; cbn.
  - rewrite Hs. left; reflexivity.
  - destruct (is_space x); [apply in_or_app; right|right]; apply IH; assumption.
Qed.
Lemma slug_filtered_control U rw lw s c :
  bad_control c -> In c (slug_pre U lw s) -> In c (slug_filtered U rw lw s).
Proof.
  intros Hb Hin. destruct (control_plain c Hb) as (Hp & Hs & Hc). unfold slug_filtered.
  apply filter_In. split; [|apply N.ltb_lt, Hc].
  assert (H1 : In c (filter (fun c => negb (char_mem c punctuation)) (slug_pre U lw s)))
    by (apply filter_In; rewrite Hp; auto).
  destruct rw; [apply filter_In; rewrite Hs; auto|apply squeeze_keeps; assumption].
Qed.

Lemma slug_ok_iff U rw lw s :
  slug_ok (slug_filtered U rw lw s) = true <-> forall c, bad_control c -> ~ In c (slug_pre U lw s).
Proof.
  set (r := slug_filtered U rw lw s).
  assert (Hall : forallb alnum_space r = true <-> forall c, bad_control c -> ~ In c (slug_pre U lw s)).
  { rewrite forallb_forall. split.
    - intros H c Hb Hin. pose proof (H c (slug_filtered_control U rw lw s c Hb Hin)) as Ha.
      apply alnum_space_iff in Ha. unfold bad_control, alnum in *. lia.
    - intros H c Hin. apply alnum_space_iff. apply slug_filtered_chars in Hin.
      destruct Hin as [[_ ->]|[[Ha|Hb] Hin]]; [left; reflexivity|right; exact Ha|].
      exfalso; exact (H c Hb Hin). }
  unfold slug_ok. rewrite orb_true_iff, Hall. split; [|intros H; left; exact H].
  intros [H|H]; [exact H|]. exfalso.
  destruct (rev r) as [|c r'] eqn:E; [discriminate|].
  apply andb_true_iff in H. destruct H as [H _]. apply N.eqb_eq in H. subst c.
  assert (Hin : In LF r) by (apply in_rev; rewrite E; left; reflexivity).
  apply slug_filtered_chars in Hin. unfold LF, SPACE, alnum, bad_control in Hin. lia.
Qed.

Theorem slug_chars U rw lw s r : slug U rw lw s = Ok r ->
  Forall (fun c => alnum c \/ (rw = false /\ c = SPACE)) r.
Proof.
  rewrite slug_unfold. destruct (slug_ok _) eqn:E; [|discriminate]. intros H; injection H as <-.
  rewrite slug_ok_iff in E. apply Forall_forall. intros c Hin. apply slug_filtered_chars in Hin.
  destruct Hin as [Hin|[[Ha|Hb] Hin]]; [right; exact Hin|left; exact Ha|]. exfalso; exact (E c Hb Hin).
Qed.

Theorem slug_lowercase U s r : unicode_ok U -> slug U true true s = Ok r -> Forall lower_alnum r.
Proof.
  intros HU. rewrite slug_unfold. destruct (slug_ok _) eqn:E; [|discriminate]. intros H; injection H as <-.
  rewrite slug_ok_iff in E. apply Forall_forall. intros c Hin. apply slug_filtered_chars in Hin.
  destruct Hin as [[Hf _]|[[Ha|Hb] Hin]]; [discriminate| |exfalso; exact (E c Hb Hin)].
  unfold slug_pre in Hin.
  assert (Hu : ~ (65 <= c <= 90)) by (intros Hc; exact (lower_upper U HU _ c Hc Hin)).
  unfold lower_alnum, alnum in *. lia.
Qed.

Lemma slug_pre_control U lw s c : unicode_ok U -> bad_control c -> In c (slug_pre U lw s) -> In c s.
Proof.
  intros HU Hb. unfold slug_pre. destruct lw; intros Hin.
  - apply (lower_control U HU) in Hin; [|exact Hb]. apply filter_In in Hin.
    eapply nfd_control; [exact HU|exact Hb|apply Hin].
  - apply filter_In in Hin. eapply nfd_control; [exact HU|exact Hb|apply Hin].
Qed.

Theorem slug_total U rw lw s : unicode_ok U -> (forall c, In c s -> ~ bad_control c) ->
  exists r, slug U rw lw s = Ok r.
Proof.
  intros HU H. rewrite slug_unfold. eexists. destruct (slug_ok _) eqn:E; [reflexivity|].
  exfalso. assert (E' : slug_ok (slug_filtered U rw lw s) = true); [|congruence].
  apply slug_ok_iff. intros c Hb Hin. apply (H c); [|exact Hb]. eapply slug_pre_control; eassumption.
Qed.
Theorem slug_errors U rw lw s e : slug U rw lw s = Err e -> e = AssertionError.
Proof. rewrite slug_unfold. destruct (slug_ok _); congruence. Qed.

Lemma filter_id {A} (p : A -> bool) l : (forall x, In x l -> p x = true) -> filter p l = l.
Proof.
  induction l as [|a l IH]; cbn; intros H; [reflexivity|].
  rewrite (H a (or_introl eq_refl)), IH by (intros x Hx; apply H; right; exact Hx). reflexivity.
Qed.
Lemma filter_filter {A} (p q : A -> bool) l : filter p (filter q l) = filter (fun x => q x && p x) l.
Proof. induction l as [|a l IH]; cbn; [reflexivity|]. destruct (q a); cbn; [destruct (p a)|]; rewrite IH; reflexivity. Qed.

(** on ASCII text slug keeps exactly the letters and digits *)
Lemma mn_filter U s : unicode_ok U -> ascii s -> filter (fun c => negb (is_mn U c)) s = s.
Proof.
  intros HU Ha. apply filter_id. intros c Hc. rewrite (mn_ascii U HU); [reflexivity|].
  eapply Forall_forall in Ha; eassumption.
Qed.
Lemma ascii_filter_pre U lw s : unicode_ok U -> ascii s ->
  slug_pre U lw s = if lw then ascii_lower s else s.
Proof.
  intros HU Ha. unfold slug_pre. rewrite (nfd_ascii U HU) by exact Ha.
  rewrite mn_filter by assumption.
  destruct lw; [apply (lower_ascii U HU), Ha|reflexivity].
Qed.
Theorem slug_ascii U lw s : unicode_ok U -> ascii s -> (forall c, In c s -> ~ bad_control c) ->
  slug U true lw s = Ok (filter (fun c => is_letter c || is_digit c) (if lw then ascii_lower s else s)).
Proof.
  intros HU Ha Hb.
  destruct (slug_total U true lw s HU Hb) as [r Hr]. rewrite Hr.
  rewrite slug_unfold in Hr. destruct (slug_ok _) eqn:E; [|discriminate]. injection Hr as <-. f_equal.
  unfold slug_filtered. rewrite (ascii_filter_pre U lw s) by assumption.
  set (t := if lw then ascii_lower s else s).
  assert (Ht : ascii t).
  { unfold t. destruct lw; [|exact Ha]. unfold ascii, ascii_lower in *. apply Forall_map.
    eapply Forall_impl; [|exact Ha]. cbv beta. intros c Hc. unfold lower1, is_upper. destruct ((65 <=? c) && (c <=? 90)) eqn:Eu; lia. }
  assert (Hbt : forall c, In c t -> ~ bad_control c).
  { unfold t. destruct lw; [|exact Hb]. intros c Hc. unfold ascii_lower in Hc. apply in_map_iff in Hc.
    destruct Hc as (x & <- & Hx). specialize (Hb x Hx). unfold lower1, is_upper. 
    destruct ((65 <=? x) && (x <=? 90)) eqn:Eu; [|exact Hb]. unfold bad_control. lia. }
  rewrite !filter_filter. apply filter_ext_in. intros c Hc.
  assert (Hc' : c < 128) by (eapply Forall_forall in Ht; eassumption).
  assert (Hlt : (c <? 128) = true) by lia. rewrite Hlt, andb_true_r.
  destruct (is_letter c || is_digit c) eqn:Eal.
  - apply alnum_iff in Eal. destruct (alnum_plain c Eal) as (-> & -> & _). reflexivity.
  - destruct (char_mem c punctuation) eqn:Ep; [reflexivity|]. destruct (is_space c) eqn:Es; [reflexivity|].
    exfalso. destruct (ascii_classes c Hc' Ep Es) as [Hal|Hctl]; [apply alnum_iff in Hal; congruence|].
    exact (Hbt c Hc Hctl).
Qed.

(** ** normalize_name *)
Lemma join_chars (P : N -> Prop) sep parts :
  Forall P sep -> Forall (Forall P) parts -> Forall P (join sep parts).
Proof.
  intros Hs. induction 1 as [|p ps Hp Hps IH]; cbn; [constructor|].
  destruct ps as [|q qs]; [exact Hp|]. apply Forall_app. split; [exact Hp|].
  apply Forall_app. split; [exact Hs|exact IH].
Qed.
Definition name_char (c : N) : Prop := alnum c \/ c = 95.

Lemma kw_names : Forall (fun k => attribute_name k) kwlist.
Proof.
  assert (H : forall k, ascii_identifier k = true -> attribute_name k).
  { intros [|c s]; cbn; [discriminate|]. intros H. apply andb_true_iff in H. destruct H as [H1 H2].
    unfold attribute_name. split; [discriminate|split].
    - constructor; [|apply Forall_forall; rewrite forallb_forall in H2; intros x Hx; specialize (H2 x Hx)].
      + unfold name_char, alnum, is_letter, is_upper, is_lower in *. lia.
      + unfold name_char, alnum, is_letter, is_upper, is_lower, is_digit in *. lia.
    - intros c0 r E. injection E as <- <-. unfold is_letter, is_upper, is_lower in H1. lia. }
  assert (Hk : forallb ascii_identifier kwlist = true) by (vm_compute; reflexivity).
  rewrite forallb_forall in Hk. apply Forall_forall. intros k Hin. apply H, Hk, Hin.
Qed.

Theorem normalize_name_valid U s r : normalize_name U s = Ok r -> attribute_name r.
Proof.
  unfold normalize_name. set (t := replace _ _ _).
  destruct (str_mem t kwlist) eqn:Ek.
  - intros H; injection H as <-. apply str_mem_In in Ek.
    assert (Hk : attribute_name t) by (eapply Forall_forall; [apply kw_names|exact Ek]).
    destruct Hk as (H1 & H2 & H3). split; [destruct t; discriminate|split].
    + apply Forall_app. split; [exact H2|]. constructor; [right; reflexivity|constructor].
    + intros c r E. destruct t as [|c' t']; [congruence|]. injection E as <- <-. eapply H3; reflexivity.
  - destruct (mapM _ _) as [parts|e] eqn:Em; cbn [bind]; [|discriminate].
    assert (Hj : Forall name_char (join (lit "_") parts)).
    { apply join_chars; [constructor; [right; reflexivity|constructor]|].
      apply mapM_Ok_inv in Em. clear -Em. induction Em as [|p q ps qs Hp _ IH]; constructor; [|exact IH].
      apply slug_chars in Hp. eapply Forall_impl; [|exact Hp]. intros c [Hc|[Hf _]]; [left; exact Hc|discriminate]. }
    set (j := match join (lit "_") parts with [] => lit "_" | _ => join (lit "_") parts end).
    replace (match join (lit "_") parts with [] => lit "_" | n :: l => n :: l end) with j
      by (unfold j; destruct (join (lit "_") parts); reflexivity).
    assert (Hj' : Forall name_char j /\ j <> []).
    { unfold j. destruct (join (lit "_") parts) eqn:E; [split; [|discriminate]; constructor; [right; reflexivity|constructor]|].
      split; [exact Hj|discriminate]. }
    destruct Hj' as [Hc Hne]. destruct j as [|c j']; [congruence|].
    destruct (is_letter c || (c =? 95)) eqn:El; intros H; injection H as <-.
    + split; [discriminate|split; [exact Hc|]]. intros c0 r0 E. injection E as <- <-.
      unfold is_letter, is_upper, is_lower in El. lia.
    + split; [discriminate|split; [constructor; [right; reflexivity|exact Hc]|]].
      intros c0 r0 E. injection E as <- <-. lia.
Qed.

Lemma replace1_absent c new s : ~ In c s -> replace [c] new s = s.
Proof.
  rewrite replace_one. unfold replace1. induction s as [|x s IH]; cbn; intros H; [reflexivity|].
  destruct (N.eqb_spec x c) as [->|Hn]; [exfalso; apply H; left; reflexivity|].
  cbn. rewrite IH by (intro; apply H; right; assumption). reflexivity.
Qed.
Lemma split_aux_nonempty c s : forall cur, split_aux [c] cur s 0 <> [].
Proof.
  induction s as [|y s IH]; intros cur; cbn [split_aux startswith List.length Nat.sub]; [discriminate|].
  rewrite andb_true_r. destruct (c =? y); [discriminate|apply IH].
Qed.
Lemma join_split1 c s : join [c] (split [c] s) = s.
Proof.
  unfold split. assert (H : forall cur, join [c] (split_aux [c] cur s 0) = cur ++ s).
  { induction s as [|x s IH]; intros cur; cbn [split_aux].
    - cbn. rewrite app_nil_r. reflexivity.
    - cbn [startswith List.length Nat.sub]. rewrite andb_true_r.
      destruct (N.eqb_spec c x) as [<-|Hn].
      + specialize (IH []). destruct (split_aux [c] [] s 0) as [|p ps] eqn:E.
        * exfalso. exact (split_aux_nonempty c s [] E).
        * change (join [c] (cur :: p :: ps)) with (cur ++ [c] ++ join [c] (p :: ps)). rewrite IH. reflexivity.
      + rewrite IH, <- app_assoc. reflexivity. }
  apply (H []).
Qed.
Lemma split1_chars c s (P : N -> Prop) : Forall P s -> Forall (Forall P) (split [c] s).
Proof.
  unfold split. assert (H : forall cur, Forall P cur -> Forall P s -> Forall (Forall P) (split_aux [c] cur s 0)).
  { induction s as [|x s IH]; intros cur Hcur Hs; cbn [split_aux].
    - constructor; [exact Hcur|constructor].
    - inversion Hs; subst. cbn [startswith List.length Nat.sub]. rewrite andb_true_r.
      destruct (c =? x); [constructor; [exact Hcur|apply IH; [constructor|assumption]]|].
      apply IH; [apply Forall_app; split; [exact Hcur|constructor; [assumption|constructor]]|assumption]. }
  intros Hs. apply H; [constructor|exact Hs].
Qed.
Lemma split1_nosep c s : Forall (fun p => ~ In c p) (split [c] s).
Proof.
  unfold split. assert (H : forall cur, ~ In c cur -> Forall (fun p => ~ In c p) (split_aux [c] cur s 0)).
  { induction s as [|x s IH]; intros cur Hcur; cbn [split_aux].
    - constructor; [exact Hcur|constructor].
    - cbn [startswith List.length Nat.sub]. rewrite andb_true_r.
      destruct (N.eqb_spec c x) as [<-|Hn]; [constructor; [exact Hcur|apply IH; intros []]|].
      apply IH. intros Hin. apply in_app_or in Hin. destruct Hin as [Hin|[E|[]]]; [exact (Hcur Hin)|congruence]. }
  apply H. intros [].
Qed.
Lemma mapM_id {A} (f : A -> res A) l : Forall (fun a => f a = Ok a) l -> mapM f l = Ok l.
Proof. induction 1 as [|a l Ha _ IH]; cbn; [reflexivity|]. rewrite Ha, IH. reflexivity. Qed.

(** legal names which are no keywords are left alone *)
Theorem normalize_name_fixed U s : unicode_ok U -> attribute_name s -> ~ In s kwlist ->
  normalize_name U s = Ok s.
Proof.
  intros HU (Hne & Hc & Hd) Hk.
  assert (Habs : forall c, ~ name_char c -> ~ In c s).
  { intros c Hn Hin. eapply Forall_forall in Hc; [|exact Hin]. exact (Hn Hc). }
  unfold normalize_name. change (lit "-") with [45]. change (lit ".") with [46]. change (lit " ") with [32].
  rewrite (replace1_absent 45), (replace1_absent 46), (replace1_absent 32)
    by (apply Habs; unfold name_char, alnum; lia).
  apply str_mem_false in Hk. rewrite Hk.
  change (lit "_") with [95].
  rewrite mapM_id.
  - cbn [bind]. rewrite join_split1. destruct s as [|c s']; [congruence|].
    assert (E : is_letter c || (c =? 95) = true).
    { specialize (Hd c s' eq_refl). inversion Hc as [|? ? Hcc _]; subst.
      unfold name_char, alnum, is_letter, is_upper, is_lower in *. lia. }
    rewrite E. reflexivity.
  - pose proof (split1_chars 95 s _ Hc) as H1. pose proof (split1_nosep 95 s) as H2.
    apply Forall_forall. intros p Hp. eapply Forall_forall in H1; [|exact Hp]. eapply Forall_forall in H2; [|exact Hp].
    assert (Hal : forall c, In c p -> alnum c).
    { intros c Hin. eapply Forall_forall in H1; [|exact Hin]. destruct H1 as [H1| ->]; [exact H1|]. contradiction. }
    rewrite slug_ascii; [|exact HU| |].
    + f_equal. apply filter_id. intros c Hin. apply alnum_iff, Hal, Hin.
    + apply Forall_forall. intros c Hin. specialize (Hal c Hin). unfold alnum in Hal. lia.
    + intros c Hin Hb. exact (control_not_alnum c Hb (Hal c Hin)).
Qed.
Theorem normalize_name_idem U s r : unicode_ok U -> normalize_name U s = Ok r -> ~ In r kwlist ->
  normalize_name U r = Ok r.
Proof. intros HU H Hk. apply normalize_name_fixed; [exact HU|eapply normalize_name_valid, H|exact Hk]. Qed.

Theorem normalize_name_keyword U k : In k kwlist -> normalize_name U k = Ok (k ++ lit "_").
Proof.
  intros Hk. unfold normalize_name.
  assert (Hn : attribute_name k) by (eapply Forall_forall; [apply kw_names|exact Hk]).
  destruct Hn as (_ & Hc & _).
  assert (Habs : forall c, ~ name_char c -> ~ In c k).
  { intros c Hn Hin. eapply Forall_forall in Hc; [|exact Hin]. exact (Hn Hc). }
  change (lit "-") with [45]. change (lit ".") with [46]. change (lit " ") with [32].
  rewrite (replace1_absent 45), (replace1_absent 46), (replace1_absent 32)
    by (apply Habs; unfold name_char, alnum; lia).
  apply str_mem_In in Hk. rewrite Hk. reflexivity.
Qed.

Lemma replace1_In c d s x : In x (replace [c] [d] s) -> x = d \/ In x s.
Proof.
  rewrite replace_one. unfold replace1. intros H. apply in_flat_map in H. destruct H as (y & Hy & Hx).
  destruct (y =? c); destruct Hx as [<-|[]]; auto.
Qed.
Theorem normalize_name_total U s : unicode_ok U -> (forall c, In c s -> ~ bad_control c) ->
  exists r, normalize_name U s = Ok r.
Proof.
  intros HU H. unfold normalize_name. set (t := replace _ _ _).
  destruct (str_mem t kwlist); [eexists; reflexivity|].
  assert (Ht : forall c, In c t -> ~ bad_control c).
  { intros c Hin. unfold t in Hin. change (lit "-") with [45] in Hin. change (lit ".") with [46] in Hin.
    change (lit " ") with [32] in Hin. change (lit "_") with [95] in Hin.
    apply replace1_In in Hin. destruct Hin as [->|Hin]; [unfold bad_control; lia|].
    apply replace1_In in Hin. destruct Hin as [->|Hin]; [unfold bad_control; lia|].
    apply replace1_In in Hin. destruct Hin as [->|Hin]; [unfold bad_control; lia|]. apply H, Hin. }
  assert (Hm : exists parts, mapM (slug U true false) (split (lit "_") t) = Ok parts).
  { assert (Hp : Forall (fun p => forall c, In c p -> ~ bad_control c) (split (lit "_") t)).
    { pose proof (split1_chars 95 t (fun c => ~ bad_control c)) as Hs.
      eapply Forall_impl; [|apply Hs, Forall_forall, Ht]. intros p Hp c Hc. eapply Forall_forall in Hp; eassumption. }
    induction Hp as [|p ps Hp _ [qs IH]]; [eexists; reflexivity|].
    destruct (slug_total U true false p HU Hp) as [q Hq]. exists (q :: qs). cbn [mapM]. rewrite Hq, IH. reflexivity. }
  destruct Hm as [parts ->]. cbn [bind].
  destruct (join (lit "_") parts) as [|c j]; [eexists; reflexivity|].
  destruct (is_letter c || (c =? 95)); eexists; reflexivity.
Qed.

(** an oracle that is right on ASCII *)
Definition ascii_unicode : unicode :=
  {| nfd := fun s => s; is_mn := fun c => false; py_lower := ascii_lower |}.
Lemma ascii_unicode_ok : unicode_ok ascii_unicode.
Proof.
  constructor; cbn; try reflexivity; try tauto.
  - intros s c Hb Hin. unfold ascii_lower in Hin. apply in_map_iff in Hin. destruct Hin as (x & <- & Hx).
    unfold lower1, is_upper in *. destruct ((65 <=? x) && (x <=? 90)) eqn:E; [|exact Hx].
    exfalso. unfold bad_control in Hb. lia.
  - intros s c Hc Hin. unfold ascii_lower in Hin. apply in_map_iff in Hin. destruct Hin as (x & <- & Hx).
    unfold lower1, is_upper in *. destruct ((65 <=? x) && (x <=? 90)) eqn:E; lia.
Qed.

(** ASCII inputs are computed the same by every admissible oracle *)
Definition alnums (s : pystr) : pystr := filter (fun c => is_letter c || is_digit c) s.
Theorem normalize_keyword_witness U : unicode_ok U ->
  normalize_name U (lit "cl/ass") = Ok (lit "class") /\ In (lit "class") kwlist
  /\ normalize_name U (lit "1") = Ok (lit "_1")
  /\ normalize_name U (lit "a-b") = normalize_name U (lit "a_b").
Proof.
  intros HU.
  assert (Hs : forall s, forallb (fun c => (32 <=? c) && (c <? 127)) s = true -> slug U true false s = Ok (alnums s)).
  { intros s Hs. rewrite forallb_forall in Hs. rewrite slug_ascii; [reflexivity|exact HU| |].
    - apply Forall_forall. intros c Hc. specialize (Hs c Hc). lia.
    - intros c Hc. specialize (Hs c Hc). unfold bad_control. lia. }
  assert (E1 : slug U true false (lit "cl/ass") = Ok (lit "class")) by (rewrite Hs by reflexivity; reflexivity).
  assert (E2 : slug U true false (lit "1") = Ok (lit "1")) by (rewrite Hs by reflexivity; reflexivity).
  repeat split.
  - unfold normalize_name.
    replace (split (lit "_") (replace (lit " ") (lit "_") (replace (lit ".") (lit "_") (replace (lit "-") (lit "_") (lit "cl/ass")))))
      with [lit "cl/ass"] by reflexivity.
    cbn [mapM]. rewrite E1. reflexivity.
  - apply str_mem_In. reflexivity.
  - unfold normalize_name.
    replace (split (lit "_") (replace (lit " ") (lit "_") (replace (lit ".") (lit "_") (replace (lit "-") (lit "_") (lit "1")))))
      with [lit "1"] by reflexivity.
    cbn [mapM]. rewrite E2. reflexivity.
Qed.
Theorem normalize_control_witness U : unicode_ok U -> normalize_name U [0] = Err AssertionError.
Proof.
  intros HU. unfold normalize_name.
  replace (split (lit "_") (replace (lit " ") (lit "_") (replace (lit ".") (lit "_") (replace (lit "-") (lit "_") [0]))))
    with [[0]] by reflexivity.
  cbn [mapM]. rewrite slug_unfold. destruct (slug_ok _) eqn:E; [|reflexivity].
  exfalso. rewrite slug_ok_iff in E. apply (E 0); [left; lia|].
  rewrite (ascii_filter_pre U false [0] HU); [left; reflexivity|]. constructor; [lia|constructor].
Qed.

(** ** NamedTupleReader *)
Lemma distinctb_iff l : distinctb l = true <-> NoDup l.
Proof.
  induction l as [|x l IH]; cbn; [split; [constructor|reflexivity]|].
  rewrite andb_true_iff, negb_true_iff, IH, str_mem_false. split.
  - intros [H1 H2]. constructor; assumption.
  - intros H; inversion H; auto.
Qed.
Lemma ascii_identifier_iff s : ascii_identifier s = true <-> attribute_name s.
Proof.
  destruct s as [|c s]; cbn.
  - split; [discriminate|]. intros [H _]; congruence.
  - rewrite andb_true_iff, forallb_forall. split.
    + intros [H1 H2]. split; [discriminate|split].
      * constructor; [unfold alnum, is_letter, is_upper, is_lower in *; lia|].
        apply Forall_forall. intros x Hx. specialize (H2 x Hx).
        unfold alnum, is_letter, is_upper, is_lower, is_digit in *; lia.
      * intros c0 r E. injection E as <- <-. unfold is_letter, is_upper, is_lower in *; lia.
    + intros (_ & Hc & Hd). inversion Hc as [|? ? H1 H2]; subst. split.
      * specialize (Hd c s eq_refl). unfold alnum, is_letter, is_upper, is_lower in *; lia.
      * intros x Hx. eapply Forall_forall in H2; [|exact Hx].
        unfold alnum, is_letter, is_upper, is_lower, is_digit in *; lia.
Qed.
Lemma namedtuple_iff names : namedtuple names = Ok names <-> Forall usable_field names /\ NoDup names.
Proof.
  unfold namedtuple.
  assert (H : forallb (fun n => ascii_identifier n && negb (str_mem n kwlist) && negb (startswith (lit "_") n)) names && distinctb names = true
              <-> Forall usable_field names /\ NoDup names).
  { rewrite andb_true_iff, distinctb_iff, forallb_forall, Forall_forall.
    assert (Hu : forall n, ascii_identifier n && negb (str_mem n kwlist) && negb (startswith (lit "_") n) = true <-> usable_field n).
    { intros n. rewrite !andb_true_iff, !negb_true_iff, ascii_identifier_iff, str_mem_false.
      unfold usable_field. change (lit "_") with [95]. split.
      - intros [[H1 H2] H3]. repeat split; try apply H1; [exact H2|]. intros r ->. cbn in H3. discriminate.
      - intros (H1 & H2 & H3). repeat split; try apply H1; [exact H2|]. destruct n as [|c r]; [reflexivity|].
        cbn [startswith]. destruct (N.eqb_spec 95 c) as [<-|]; [|reflexivity]. exfalso. exact (H3 r eq_refl). }
    split; intros [H1 H2]; (split; [|exact H2]); intros n Hn; apply Hu, H1, Hn. }
  split.
  - destruct (_ && _) eqn:E; [intros _; apply H; reflexivity|discriminate].
  - intros Hn. apply H in Hn. rewrite Hn. reflexivity.
Qed.
Lemma namedtuple_err names e : namedtuple names = Err e -> e = ValueError.
Proof. unfold namedtuple. destruct (_ && _); congruence. Qed.

Lemma fold_setdefault (fns : list pystr) : forall (d : list (dkey * dval)),
  (forall n, In n fns -> exists v, dget dkey_eqb d (Some n) = Some v) ->
  fold_left (fun acc n => match dget dkey_eqb acc (Some n) with
                          | Some _ => acc
                          | None => dset dkey_eqb acc (Some n) (DVal None)
                          end) fns d = d.
Proof.
  induction fns as [|n fns IH]; cbn [fold_left]; intros d H; [reflexivity|].
  destruct (H n (or_introl eq_refl)) as [v ->]. apply IH. intros m Hm. apply H. right; exact Hm.
Qed.

Lemma Forall2_NoDup_names U fns names :
  Forall2 (fun k n => normalize_name U k = Ok n) fns names -> NoDup names -> NoDup fns.
Proof.
  induction 1 as [|k n fns names Hk H IH]; intros Hnd; constructor; inversion Hnd as [|? ? Hni Hnd']; subst.
  - intros Hin. apply Hni. clear -Hk H Hin. induction H as [|k' n' fns names Hk' _ IH]; [destruct Hin|].
    destruct Hin as [->|Hin]; [left; congruence|right; apply IH, Hin].
  - apply IH, Hnd'.
Qed.

Lemma mapM_concat_map {A B} (f : A -> res (list B)) g l :
  (forall a, In a l -> f a = Ok (g a)) -> mapM f l = Ok (map g l).
Proof. apply mapM_Ok. Qed.

Lemma dget_combine_nodup {V} (ks : list pystr) : forall (vs : list V), NoDup ks -> length ks = length vs ->
  mapM (fun f => match dget str_eqb (combine ks vs) f with Some v => Ok (f, v) | None => Err TypeError end) ks
  = Ok (combine ks vs).
Proof.
  intros vs Hnd Hl. apply mapM_Ok_iff.
  assert (H : forall pre prev, length pre = length prev -> NoDup (pre ++ ks) ->
    Forall2 (fun (a : pystr) (b : pystr * V) =>
       match dget str_eqb (combine pre prev ++ combine ks vs) a with Some v => Ok (a, v) | None => Err TypeError end = Ok b)
      ks (combine ks vs)); [|apply (H [] []); [reflexivity|exact Hnd]].
  revert vs Hl Hnd. induction ks as [|k ks IH]; intros [|v vs] Hl Hnd pre prev Hp Hall; cbn in Hl; try discriminate; cbn [combine]; constructor.
  - assert (Hk : dget str_eqb (combine pre prev ++ (k, v) :: combine ks vs) k = Some v).
    { rewrite (dget_app _). destruct (dget str_eqb (combine pre prev) k) eqn:E.
      - exfalso. assert (In k pre).
        { clear -E. revert prev E. induction pre as [|x pre IH]; intros [|y prev] E; cbn in E; try discriminate.
          destruct (str_eqb_spec k x) as [->|]; [left; reflexivity|right; eapply IH, E]. }
        apply NoDup_remove_2 in Hall. apply Hall. apply in_or_app; left; assumption.
      - cbn. rewrite str_eqb_refl. reflexivity. }
    rewrite Hk. reflexivity.
  - inversion Hnd; subst. specialize (IH vs (eq_add_S _ _ Hl) H2 (pre ++ [k]) (prev ++ [v])).
    replace (combine pre prev ++ (k, v) :: combine ks vs) with (combine (pre ++ [k]) (prev ++ [v]) ++ combine ks vs).
    + apply IH; [rewrite !app_length; cbn; lia|rewrite <- app_assoc; exact Hall].
    + assert (Hc : combine (pre ++ [k]) (prev ++ [v]) = combine pre prev ++ [(k, v)]).
      { clear -Hp. revert prev Hp. induction pre as [|x pre IH]; intros [|y prev] Hp; cbn in *; try discriminate; [reflexivity|].
        rewrite IH by lia. reflexivity. }
      rewrite Hc, <- app_assoc. reflexivity.
Qed.

Lemma concat_map_single {A B} (g : A -> B) l : concat (map (fun a => [g a]) l) = map g l.
Proof. induction l as [|a l IH]; cbn; [reflexivity|]. rewrite IH. reflexivity. Qed.

Theorem named_tuple_item U fns names restkey restval row :
  Forall2 (fun k n => normalize_name U k = Ok n) fns names ->
  Forall usable_field names -> NoDup names -> (forall k, restkey = Some k -> ~ In k fns) ->
  nt_item U fns restkey restval row = Ok (combine names (padded fns row restval)).
Proof.
  intros Hn Hu Hnd Hrk.
  assert (Hndf : NoDup fns) by (eapply Forall2_NoDup_names; eassumption).
  unfold nt_item. rewrite dict_item_exact by assumption.
  set (P := padded fns row restval).
  assert (HlP : (length fns <= length P)%nat)
    by (unfold P, padded; rewrite app_length, map_length, repeat_length; lia).
  clearbody P.
  set (ex := if Nat.ltb (length fns) (length row) then [(restkey, DRest (skipn (length fns) row))] else []).
  set (d := map (fun kv : pystr * dval => (Some (fst kv), snd kv)) (combine fns P) ++ ex).
  rewrite fold_setdefault.
  2:{ intros n Hin. unfold d. rewrite (dget_app _).
      assert (E : exists v, dget dkey_eqb (map (fun kv : pystr * dval => (Some (fst kv), snd kv)) (combine fns P)) (Some n) = Some v).
      { clear -Hin HlP. revert P HlP. induction fns as [|k fns IH]; intros [|v P] HlP; cbn in *; try contradiction; try lia.
        destruct (str_eqb_spec n k) as [->|Hne]; [eexists; reflexivity|].
        destruct Hin as [->|Hin]; [congruence|]. apply IH; [exact Hin|lia]. }
      destruct E as [v ->]. eexists; reflexivity. }
  unfold nt_cls. assert (Hm : mapM (normalize_name U) fns = Ok names) by (apply mapM_Ok_iff; exact Hn).
  rewrite Hm. cbn [bind]. rewrite (proj2 (namedtuple_iff names)) by (split; assumption). cbn [bind].
  unfold d. rewrite mapM_app.
  assert (Hex : mapM (fun kv : dkey * dval => match fst kv with
                        | Some k => if str_mem k fns then n <- normalize_name U k ;; Ok [(n, snd kv)] else Ok []
                        | None => Ok []
                        end) ex = Ok (map (fun _ => []) ex)).
  { apply mapM_Ok. intros [k v] Hin. unfold ex in Hin. destruct (Nat.ltb _ _); [|destruct Hin].
    destruct Hin as [E|[]]. injection E as <- <-. cbn [fst]. destruct restkey as [k|]; [|reflexivity].
    assert (Hk : str_mem k fns = false) by (apply str_mem_false, Hrk; reflexivity). rewrite Hk. reflexivity. }
  assert (Hmain : mapM (fun kv : dkey * dval => match fst kv with
                        | Some k => if str_mem k fns then n <- normalize_name U k ;; Ok [(n, snd kv)] else Ok []
                        | None => Ok []
                        end) (map (fun kv : pystr * dval => (Some (fst kv), snd kv)) (combine fns P))
                  = Ok (map (fun kv => [kv]) (combine names P))).
  { rewrite mapM_map. cbn [fst snd].
    assert (G : forall all, (forall k, In k fns -> str_mem k all = true) ->
      mapM (fun a : pystr * dval => if str_mem (fst a) all then n <- normalize_name U (fst a) ;; Ok [(n, snd a)] else Ok [])
        (combine fns P) = Ok (map (fun kv => [kv]) (combine names P))).
    { clear -Hn HlP. intros all Hsub. revert P HlP.
      induction Hn as [|k n fns names Hk _ IH]; intros [|v P] HlP; cbn in HlP; try lia; try reflexivity.
      cbn [combine mapM map fst snd]. rewrite Hsub by (left; reflexivity). rewrite Hk. cbn [bind].
      rewrite IH; [reflexivity| |lia]. intros x Hx. apply Hsub. right; exact Hx. }
    apply G. intros k Hk; apply str_mem_In, Hk. }
  match goal with |- context [mapM ?f (map ?g (combine fns P))] =>
    replace (mapM f (map g (combine fns P))) with (Ok (map (fun kv : pystr * dval => [kv]) (combine names P)))
      by (symmetry; exact Hmain) end.
  match goal with |- context [mapM ?f ex] =>
    replace (mapM f ex) with (Ok (map (fun _ : dkey * dval => @nil (pystr * dval)) ex)) by (symmetry; exact Hex) end.
  cbn [bind]. rewrite concat_app, concat_map_single, map_id.
  assert (Hnil : concat (map (fun _ : dkey * dval => @nil (pystr * dval)) ex) = [])
    by (clear; induction ex; cbn; auto).
  rewrite Hnil, app_nil_r.
  assert (Hl : length fns = length names) by (eapply Forall2_length; exact Hn).
  assert (Hkeys : map fst (combine names P) = names) by (apply combine_firstn_short; lia).
  rewrite (dset_all_new _ str_eqb_eq) by (cbn; rewrite Hkeys; exact Hnd). cbn [app].
  unfold nt_call.
  replace (forallb (fun kv : pystr * dval => str_mem (fst kv) names) (combine names P)) with true.
  2:{ symmetry. apply forallb_forall. intros [a b] Hin. apply str_mem_In. cbn. eapply in_combine_l, Hin. }
  replace (combine names P) with (combine names (firstn (length names) P)).
  - apply dget_combine_nodup; [exact Hnd|]. rewrite firstn_length. lia.
  - clear. revert P. induction names as [|n names IH]; intros [|v P]; cbn; try reflexivity. rewrite IH. reflexivity.
Qed.

Theorem named_tuple_unusable U fns names restkey restval row :
  Forall2 (fun k n => normalize_name U k = Ok n) fns names ->
  ~ (Forall usable_field names /\ NoDup names) ->
  nt_item U fns restkey restval row = Err ValueError.
Proof.
  intros Hn Hbad. unfold nt_item, nt_cls.
  assert (Hm : mapM (normalize_name U) fns = Ok names) by (apply mapM_Ok_iff; exact Hn).
  rewrite Hm. cbn [bind]. destruct (namedtuple names) as [x|e] eqn:E.
  - exfalso. apply Hbad, namedtuple_iff. unfold namedtuple in *. destruct (_ && _); congruence.
  - cbn [bind]. rewrite (namedtuple_err _ _ E). reflexivity.
Qed.

Example named_tuple_demo :
  nt_item ascii_unicode [lit "a b"; lit "class"; lit "C"] None None [lit "1"; lit "2"] =
  Ok [(lit "a_b", DStr (lit "1")); (lit "class_", DStr (lit "2")); (lit "C", DVal None)].
Proof. reflexivity. Qed.
Example named_tuple_demo_hyp :
  Forall2 (fun k n => normalize_name ascii_unicode k = Ok n) [lit "a b"; lit "class"] [lit "a_b"; lit "class_"]
  /\ namedtuple [lit "a_b"; lit "class_"] = Ok [lit "a_b"; lit "class_"].
Proof. split; [repeat constructor|reflexivity]. Qed.
Example normalize_demo :
  map (normalize_name ascii_unicode) [lit "class"; lit "a-name"; lit "Name"; lit ""; lit "1"]
  = map Ok [lit "class_"; lit "a_name"; lit "Name"; lit "_"; lit "_1"]
  /\ slug ascii_unicode true true (lit "A B. aC") = Ok (lit "abac").
Proof. split; reflexivity. Qed.
