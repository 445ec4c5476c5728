(** Serialising and reading again, generically: attributes settle to what is read again. *)
From Coq Require Import Sorted Permutation.
From Verif Require Import PyStr Dsv Json Dialects NatLang Datatype Meta MetaSpec Descr DescrSpec DescrProofs DescrProofs2 DescrProofs3 SettleSpec.
Local Open Scope nat_scope.

Definition full (kv : pystr * json) : bool := negb (is_empty (snd kv)).
Lemma kept_filter l : kept_items l (filter full l).
Proof.
  induction l as [|[k j] l IH]; [constructor|]. cbn [filter]. unfold full at 1. cbn [snd]. destruct (is_empty j) eqn:E; cbn [negb].
  - apply ki_drop; [apply is_empty_iff, E|exact IH].
  - apply ki_keep; [intros X; apply is_empty_iff in X; congruence|exact IH].
Qed.
Lemma filter_sorted (p : pystr * json -> bool) l : Sorted key_le l -> Sorted key_le (filter p l).
Proof.
  intros H. apply Sorted_StronglySorted in H; [|intros x y z; unfold key_le, Relations_1.Transitive in *; revert x y z].
  - apply StronglySorted_Sorted. induction H as [|a l S IH F]; [constructor|]. cbn [filter]. destruct (p a); [|exact IH]. constructor; [exact IH|].
    apply Forall_forall. intros x Hx. apply filter_In in Hx. rewrite Forall_forall in F. apply F, Hx.
  - intros [x ?] [y ?] [z ?]. cbn [fst]. revert y z. induction x as [|a x IH]; intros [|b y] [|c z]; cbn [str_leb]; try reflexivity; try discriminate.
    intros H1 H2. apply orb_true_iff in H1, H2. rewrite !andb_true_iff, !N.ltb_lt, !N.eqb_eq in *. apply orb_true_iff. rewrite andb_true_iff, N.ltb_lt, N.eqb_eq.
    destruct H1 as [H1|[-> H1]], H2 as [H2|[-> H2]]; try (left; Lia.lia). right. split; [reflexivity|]. eapply IH; eassumption.
Qed.

Section Settle.
Context {B : Type} (env : world B).
Notation mval := (mval B). Notation mobj := (mobj B). Notation field := (field B). Notation class := (class B).
Notation stored_ok := (stored_ok env).

Lemma stored_filter (C : class) common at_ : stored_ok C common at_ -> stored_ok C (filter full common) (filter full at_).
Proof.
  intros [S1 S2 S3 S4 S5 S6 S7]. constructor.
  - apply Forall_forall. intros x Hx. apply filter_In in Hx. rewrite Forall_forall in S1. apply S1, Hx.
  - apply filter_sorted, S2.
  - apply NoDup_filter_fst, S3.
  - apply filter_sorted, S4.
  - apply NoDup_filter_fst, S5.
  - intros v H. apply filter_In in H. apply S6, H.
  - intros v H. apply filter_In in H. apply S7, H.
Qed.
Lemma survives_filter (l : list (pystr * json)) : forall k j, In (k, j) (filter full l) -> ~ empty_json j.
Proof. intros k j H X. apply filter_In in H. destruct H as [_ H]. unfold full in H. cbn [snd] in H. apply is_empty_iff in X. rewrite X in H. discriminate H. Qed.

(** ** what an attribute contributes to the serialisation *)
Definition contrib (f : field) (v : mval) (r : list (pystr * json)) : Prop :=
  if omitted true f v then r = [] else exists j, fd_ser f true v = Ok j /\ r = filter keep [(fd_name f, j)].
Lemma contrib_attrs : forall (fs : list field) ws attrs, length fs = length ws -> asdict_attrs true fs ws = Ok attrs ->
  exists rs, Forall2 (fun fv r => contrib (fst fv) (snd fv) r) (combine fs ws) rs /\ filter keep attrs = concat rs.
Proof.
  induction fs as [|f fs IH]; intros [|w ws] attrs L E; try discriminate L; [apply Ok_inj in E; subst; exists []; split; [constructor|reflexivity]|].
  injection L as L. rewrite asdict_attrs_cons in E. destruct (omitted true f w) eqn:O.
  - destruct (IH _ _ L E) as (rs & F & C). exists ([] :: rs). split; [|exact C]. constructor; [|exact F]. cbn [fst snd]. unfold contrib. rewrite O. reflexivity.
  - destruct (fd_ser f true w) as [j|] eqn:S; [|discriminate E]. cbn [bind] in E. destruct (asdict_attrs true fs ws) as [r|] eqn:A; [|discriminate E]. cbn [bind] in E. apply Ok_inj in E. subst attrs.
    destruct (IH _ _ L A) as (rs & F & C). exists (filter keep [(fd_name f, j)] :: rs). split.
    + constructor; [|exact F]. cbn [fst snd]. unfold contrib. rewrite O. eauto.
    + cbn [concat]. rewrite <- C. change ((fd_name f, j) :: r) with ([(fd_name f, j)] ++ r). apply filter_app.
Qed.
Lemma attrs_contrib : forall (fs : list field) ws rs, length fs = length ws -> Forall2 (fun fv r => contrib (fst fv) (snd fv) r) (combine fs ws) rs ->
  exists attrs, asdict_attrs true fs ws = Ok attrs /\ filter keep attrs = concat rs.
Proof.
  induction fs as [|f fs IH]; intros [|w ws] rs L F; try discriminate L; cbn [combine] in F; [apply F2_nil in F; subst; exists []; split; reflexivity|].
  injection L as L. apply F2_cons in F. destruct F as (r & rs' & -> & C & F). cbn [fst snd] in C. destruct (IH _ _ L F) as (attrs & E & X).
  rewrite asdict_attrs_cons, E. unfold contrib in C. destruct (omitted true f w).
  - subst r. exists attrs. split; [reflexivity|exact X].
  - destruct C as (j & -> & ->). cbn [bind]. eexists. split; [reflexivity|]. cbn [concat]. rewrite <- X. change ((fd_name f, j) :: attrs) with ([(fd_name f, j)] ++ attrs). apply filter_app.
Qed.
(** ** an attribute settles.  [K]: of objects it is known that they keep what they are, [S]: those read again survive, [R]: and are these *)
Record settles_to (S : pystr -> mobj -> Prop) (R : pystr -> mobj -> mobj -> Prop) (f : field) (v v' : mval) : Prop := {
  st_conv : converted f v';
  st_surv : value_survives env S f v';
  st_rel : value_settled env R f v v';
  st_same : forall r, contrib f v r -> contrib f v' r;
}.
Definition field_settles (K S : pystr -> mobj -> Prop) (R : pystr -> mobj -> mobj -> Prop) (f : field) : Prop :=
  forall v, converted f v -> (exists r, contrib f v r) -> value_keeps K f v -> exists v', settles_to S R f v v'.

Lemma fields_settle K S R : forall fs vs rs, Forall (field_settles K S R) fs -> Forall2 converted fs vs -> Forall2 (value_keeps K) fs vs ->
  Forall2 (fun fv r => contrib (fst fv) (snd fv) r) (combine fs vs) rs -> exists vs', length vs' = length vs /\
    Forall2 converted fs vs' /\ Forall2 (value_survives env S) fs vs' /\ Forall2 (fun fv v' => value_settled env R (fst fv) (snd fv) v') (combine fs vs) vs' /\
    Forall2 (fun fv r => contrib (fst fv) (snd fv) r) (combine fs vs') rs.
Proof.
  induction fs as [|f fs IH]; intros vs rs F C V X.
  - apply F2_nil in C. subst vs. cbn [combine] in X. exists []. cbn [combine]. repeat (split; [first [reflexivity|constructor]|]). exact X.
  - apply F2_cons in C. destruct C as (v & vs' & -> & C1 & C2). apply F2_cc in V. destruct V as [V1 V2]. cbn [combine] in X. apply F2_cons in X. destruct X as (r & rs' & -> & X1 & X2).
    cbn [fst snd] in X1. apply Forall_cons_iff in F. destruct F as [F1 F2]. destruct (F1 v C1 (ex_intro _ r X1) V1) as (w & [W1 W2 W3 W4]).
    destruct (IH vs' rs' F2 C2 V2 X2) as (ws & L & A1 & A2 & A3 & A4). exists (w :: ws). split; [cbn; congruence|]. cbn [combine].
    split; [constructor; assumption|]. split; [constructor; assumption|]. split; constructor; cbn [fst snd]; auto.
Qed.

(** *** kinds of values *)
Definition written_default (f : field) : Prop :=
  wf_json (fd_default f) /\ fd_conv f (fd_default f) = Ok (MJ (fd_default f)) /\ py_eq (fd_default f) (fd_default f) = true.
Lemma default_contrib (f : field) : py_eq (fd_default f) (fd_default f) = true -> contrib f (MJ (fd_default f)) [].
Proof. intros E. unfold contrib, omitted. cbn [equals_default]. rewrite E. reflexivity. Qed.
Lemma empty_contrib (f : field) j r : fd_ser f true (MJ j) = Ok j -> empty_json j -> fd_name f <> lit "null" -> contrib f (MJ j) r -> r = [].
Proof.
  intros S E N C. unfold contrib in C. destruct (omitted true f (MJ j)); [exact C|]. destruct C as (j' & E' & ->). rewrite S in E'. apply Ok_inj in E'. subst j'.
  cbn [filter]. unfold keep. cbn [fst snd]. apply is_empty_iff in E. rewrite E. apply str_eqb_neq in N. rewrite N. reflexivity.
Qed.
Lemma default_survives S (f : field) : value_survives env S f (MJ (fd_default f)).
Proof. cbn [value_survives]. split; [auto|intros E _; exact E]. Qed.
Lemma mj_settles S R (f : field) j : written_default f -> (forall j, fd_ser f true (MJ j) = Ok j) -> converted f (MJ j) -> exists v', settles_to S R f (MJ j) v'.
Proof.
  intros (D1 & D2 & D3) Ser C.
  assert (Dec : not_written env f (MJ j) \/ ~ not_written env f (MJ j)).
  { cbn [not_written]. destruct (py_eq j (fd_default f)); [auto|]. destruct (is_empty j) eqn:E; [|right; intros [[X _]|X]; [apply is_empty_iff in X; congruence|discriminate X]].
    apply is_empty_iff in E. destruct (str_eq_dec (fd_name f) (lit "null")) as [N|N]; [right; intros [[_ X]|X]; [contradiction|discriminate X]|auto]. }
  destruct Dec as [Nw|Nw].
  - exists (MJ (fd_default f)). constructor; [exists (fd_default f); auto|apply default_survives|left; auto|]. intros r Hr.
    assert (r = []) as ->; [|apply default_contrib, D3]. destruct Nw as [[E N]|E]; [eapply empty_contrib; eauto|].
    unfold contrib, omitted in Hr. cbn [equals_default] in Hr. rewrite E in Hr. exact Hr.
  - exists (MJ j). constructor; [exact C| |right; auto|auto]. cbn [not_written] in Nw. cbn [value_survives]. split.
    + intros E. destruct (str_eq_dec (fd_name f) (lit "null")); [auto|]. contradiction Nw. auto.
    + intros E X. contradiction Nw. right. rewrite E. exact X.
Qed.
(** a value that is as it is *)
Lemma same_settles S R (f : field) v : match v with MInvalid | MUri _ | MLink _ | MBound _ | MFks _ => True | _ => False end -> converted f v -> settles_to S R f v v.
Proof. intros X C. constructor; [exact C|destruct v; try contradiction; exact I|right; destruct v; try contradiction; split; auto|auto]. Qed.
Lemma plain_settles K S R (f : field) : written_default f -> (forall j, fd_ser f true (MJ j) = Ok j) -> (forall j v, fd_conv f j = Ok v -> exists w, v = MJ w) -> field_settles K S R f.
Proof. intros D Ser M v (j & Wj & C) X V. destruct (M j v C) as (w & ->). apply mj_settles; [exact D|exact Ser|exists j; auto]. Qed.
Lemma uri_settles K S R n : field_settles K S R (uri_field n).
Proof.
  intros v C X V. pose proof C as (j & Wj & E). cbn [uri_field fd_conv] in E. apply Ok_inj in E. destruct j; subst v; try (eexists; apply same_settles; [exact I|exact C]).
  apply mj_settles; [repeat split|reflexivity|exact C].
Qed.
Lemma link_settles K S R n : field_settles K S R (link_field n).
Proof.
  intros v C X V. pose proof C as (j & Wj & E). cbn [link_field fd_conv] in E. destruct j; try discriminate E; apply Ok_inj in E; subst v; [apply mj_settles; [repeat split|reflexivity|exact C]|].
  eexists. apply same_settles; [exact I|exact C].
Qed.
Lemma fkeys_settles K S R : field_settles K S R (fkeys_field).
Proof.
  intros v C X V. pose proof C as (j & Wj & E). cbn [fkeys_field fd_conv] in E. destruct (conv_fkeys j) as [l|]; [|discriminate E]. cbn [bind] in E. apply Ok_inj in E. subst v.
  eexists. apply same_settles; [exact I|exact C].
Qed.
Lemma titles_settles K S R : field_settles K S R (titles_field env).
Proof.
  intros v C X V. pose proof C as (j & Wj & E).
  assert (Y : v = MJ JNull \/ exists nl, v = MTitles nl).
  { cbn [titles_field fd_conv] in E. destruct j; try (destruct (nl_init _ _) as [nl|[]] in E; try discriminate E; apply Ok_inj in E; subst v; eauto). apply Ok_inj in E. subst v. auto. }
  assert (Dn : written_default (titles_field env)) by (repeat split).
  destruct Y as [->|(nl & ->)]; [apply mj_settles; [exact Dn|reflexivity|exact C]|].
  assert (Dec : (nl = [] \/ nl = [(None, [])]) \/ nl <> [] /\ nl <> [(None, [])]).
  { destruct nl as [|[[l|] [|t ts]] [|x nl]]; auto; right; split; discriminate. }
  destruct Dec as [Nw|Nw].
  - exists (MJ JNull). constructor; [exists JNull; split; [exact I|reflexivity]|apply (default_survives S (titles_field env))|left; auto|]. intros r Hr.
    assert (r = []) as ->; [|apply default_contrib; reflexivity]. destruct Nw as [->| ->]; cbn in Hr; destruct Hr as (j' & Ej & ->); apply Ok_inj in Ej; subst j'; reflexivity.
  - exists (MTitles nl). constructor; [exact C|exact Nw| |auto]. right. split; [|reflexivity]. cbn [not_written]. tauto.
Qed.
End Settle.
