(** Proofs for C11 and C12. *)
From Verif Require Import PyStr Dsv Json Dialects DialectSpec DsvProofs4.

Lemma str_eqb_ok a b : str_eqb a b = true <-> a = b.
Proof. apply str_eqb_eq. Qed.

Lemma converter_plain t d an cond v :
  t <> TList -> (forall l, v <> JList l) -> v <> JNull ->
  converter t d an cond v = if isinst t v && cond v then v else d.
Proof.
  intros Ht Hl Hn. unfold converter. destruct t; try congruence; destruct v; try reflexivity; try congruence;
    exfalso; eapply Hl; reflexivity.
Qed.

Lemma conv_item_idem t cond v w : conv_item t cond v = Some w -> conv_item t cond w = Some w.
Proof.
  revert w. induction v as [| | | | |l Hl|kvs Hk] using json_ind'; intros w H; try (cbn [conv_item] in H;
    match type of H with (if ?b then _ else _) = _ => destruct b eqn:E end; [|discriminate]; injection H as <-; cbn [conv_item]; rewrite E; reflexivity).
  - cbn [conv_item] in H. injection H as <-. cbn [conv_item]. f_equal. f_equal.
    induction Hl as [|x l Hx _ IH]; [reflexivity|].
    destruct (conv_item t cond x) as [y|] eqn:Ex; [|exact IH].
    rewrite (Hx y eq_refl). rewrite IH. reflexivity.
Qed.

(** converters leave their own results alone *)
Lemma converter_idem t d an cond v :
  t <> TList -> (isinst t d && cond d = true) -> (forall l, d <> JList l) -> d <> JNull ->
  converter t d an cond (converter t d an cond v) = converter t d an cond v.
Proof.
  intros Ht Hd Hdl Hdn.
  assert (Hdef : converter t d an cond d = d).
  { rewrite converter_plain by assumption. rewrite Hd; reflexivity. }
  destruct v as [|b|z|r|s|l|kvs].
  - destruct an eqn:Ea.
    + destruct t; try congruence; reflexivity.
    + replace (converter t d false cond JNull) with d by (destruct t; try congruence; reflexivity). exact Hdef.
  - rewrite (converter_plain t d an cond (JBool b)) by (try assumption; intros; discriminate).
    destruct (isinst t (JBool b) && cond (JBool b)) eqn:E; [|exact Hdef].
    rewrite (converter_plain t d an cond (JBool b)) by (try assumption; intros; discriminate). rewrite E; reflexivity.
  - rewrite (converter_plain t d an cond (JInt z)) by (try assumption; intros; discriminate).
    destruct (isinst t (JInt z) && cond (JInt z)) eqn:E; [|exact Hdef].
    rewrite (converter_plain t d an cond (JInt z)) by (try assumption; intros; discriminate). rewrite E; reflexivity.
  - rewrite (converter_plain t d an cond (JFloat r)) by (try assumption; intros; discriminate).
    destruct (isinst t (JFloat r) && cond (JFloat r)) eqn:E; [|exact Hdef].
    rewrite (converter_plain t d an cond (JFloat r)) by (try assumption; intros; discriminate). rewrite E; reflexivity.
  - rewrite (converter_plain t d an cond (JStr s)) by (try assumption; intros; discriminate).
    destruct (isinst t (JStr s) && cond (JStr s)) eqn:E; [|exact Hdef].
    rewrite (converter_plain t d an cond (JStr s)) by (try assumption; intros; discriminate). rewrite E; reflexivity.
  - assert (Hl : forall m, converter t d an cond (JList m) =
        match conv_item t cond (JList m) with Some w => w | None => d end).
    { intros m. destruct t; try congruence; reflexivity. }
    rewrite Hl. destruct (conv_item t cond (JList l)) as [w|] eqn:E; [|exact Hdef].
    assert (Hw : exists m, w = JList m) by (cbn in E; injection E as <-; eexists; reflexivity).
    destruct Hw as [m ->]. rewrite Hl, (conv_item_idem _ _ _ _ E). reflexivity.
  - rewrite (converter_plain t d an cond (JObj kvs)) by (try assumption; intros; discriminate).
    destruct (isinst t (JObj kvs) && cond (JObj kvs)) eqn:E; [|exact Hdef].
    rewrite (converter_plain t d an cond (JObj kvs)) by (try assumption; intros; discriminate). rewrite E; reflexivity.
Qed.

(** ** Generic attrs facts *)
Section Attrs.
Variable spec : list aspec.
Hypothesis names_nodup : NoDup (map a_name spec).
(** a converter leaves its own valid results and the default alone; only the default equals the default *)
Definition aspec_ok (a : aspec) : Prop :=
  (forall v w, a_conv a v = Ok w -> a_valid a w = Ok tt -> a_conv a w = Ok w)
  /\ a_conv a (a_default a) = Ok (a_default a)
  /\ (forall v w, a_conv a v = Ok w -> a_valid a w = Ok tt -> py_eq w (a_default a) = true -> w = a_default a).
Hypothesis spec_ok : forall a, In a spec -> aspec_ok a.

Lemma attrs_init_inv kw o : attrs_init spec kw = Ok o ->
  exists vals, o = combine (map a_name spec) vals /\ length vals = length spec
    /\ (forall kv, In kv kw -> In (fst kv) (map a_name spec))
    /\ forall a v, In (a, v) (combine spec vals) -> init_attr kw a = Ok v /\ a_valid a v = Ok tt.
Proof.
  unfold attrs_init. destruct (forallb _ kw) eqn:Ek; cbn [negb]; [|discriminate].
  destruct (mapM (init_attr kw) spec) as [vals|] eqn:Em; cbn [bind]; [|discriminate].
  destruct (mapM _ (combine spec vals)) as [us|] eqn:Ev; cbn [bind]; [|discriminate].
  intros H; injection H as <-. exists vals. split; [reflexivity|].
  assert (Hf := mapM_Ok_inv _ _ _ Em). assert (Hv := mapM_Ok_inv _ _ _ Ev).
  split; [symmetry; eapply Forall2_length; exact Hf|]. split.
  - intros kv Hin. rewrite forallb_forall in Ek. apply str_mem_In, Ek, Hin.
  - intros a v Hin. split.
    + clear -Hf Hin. induction Hf as [|x y l m Hxy _ IH]; [destruct Hin|].
      destruct Hin as [E|Hin]; [injection E as <- <-; exact Hxy|apply IH, Hin].
    + clear -Hv Hin. induction Hv as [|x y l m Hxy _ IH]; [destruct Hin|].
      destruct Hin as [->|Hin]; [|apply IH, Hin]. cbn in Hxy. destruct y; exact Hxy.
Qed.

Lemma combine_map_fst {A B C} (g : A -> C) (l : list A) (m : list B) :
  length l = length m -> combine (map g l) m = map (fun x => (g (fst x), snd x)) (combine l m).
Proof. revert m; induction l as [|a l IH]; intros [|b m] H; cbn in *; try reflexivity; try discriminate.
  rewrite IH by lia. reflexivity. Qed.
Lemma map_fst_combine {A B} (l : list A) (m : list B) : length l = length m -> map fst (combine l m) = l.
Proof. revert m; induction l as [|a l IH]; intros [|b m] H; cbn in *; try reflexivity; try discriminate.
  rewrite IH by lia. reflexivity. Qed.

Lemma Forall2_combine {A B} (R : A -> B -> Prop) l : forall m,
  length l = length m -> (forall a b, In (a, b) (combine l m) -> R a b) -> Forall2 R l m.
Proof.
  induction l as [|a l IH]; intros [|b m] Hl H; cbn in *; try discriminate; constructor.
  - apply H; left; reflexivity.
  - apply IH; [lia|]. intros x y Hin. apply H; right; exact Hin.
Qed.
Lemma dget_filter (p : pystr * json -> bool) (o : attrs) k :
  NoDup (map fst o) ->
  dget str_eqb (filter p o) k =
  match dget str_eqb o k with Some v => if p (k, v) then Some v else None | None => None end.
Proof.
  induction o as [|[k0 v0] o IH]; cbn [filter dget map fst]; intros Hnd; [reflexivity|].
  inversion Hnd as [|? ? Hni Hnd']; subst.
  destruct (str_eqb k k0) eqn:E.
  - apply str_eqb_eq in E; subst k0. destruct (p (k, v0)) eqn:Ep; cbn [dget].
    + rewrite str_eqb_refl. reflexivity.
    + rewrite IH by exact Hnd'.
      assert (Hg : dget str_eqb o k = None).
      { clear -Hni. induction o as [|[k1 v1] o IH]; [reflexivity|]. cbn in *.
        destruct (str_eqb_spec k k1) as [->|]; [exfalso; apply Hni; left; reflexivity|]. apply IH. tauto. }
      rewrite Hg. reflexivity.
  - destruct (p (k0, v0)); cbn [dget]; [rewrite E|]; apply IH, Hnd'.
Qed.

Lemma dget_combine (a : aspec) (v : json) (vals : list json) :
  length vals = length spec -> In (a, v) (combine spec vals) ->
  dget str_eqb (combine (map a_name spec) vals) (a_name a) = Some v.
Proof.
  clear spec_ok. revert vals names_nodup; induction spec as [|b l IH]; intros [|w vals] Hnd Hlen Hin; cbn in *; try contradiction; try lia.
  inversion Hnd as [|? ? Hni Hnd']; subst. destruct Hin as [E|Hin].
  - injection E as -> ->. rewrite str_eqb_refl. reflexivity.
  - destruct (str_eqb_spec (a_name a) (a_name b)) as [E|_].
    + exfalso. apply Hni. rewrite <- E. apply in_map. apply in_combine_l in Hin. exact Hin.
    + apply IH; [exact Hnd'|lia|exact Hin].
Qed.

Lemma find_name a : In a spec -> find (fun b => str_eqb (a_name b) (a_name a)) spec = Some a.
Proof.
  clear spec_ok. revert names_nodup. induction spec as [|b l IH]; intros Hnd Hin; cbn in *; [contradiction|].
  inversion Hnd as [|? ? Hni Hnd']; subst. destruct Hin as [->|Hin].
  - rewrite str_eqb_refl; reflexivity.
  - destruct (str_eqb_spec (a_name b) (a_name a)) as [E|_]; [|apply IH; assumption].
    exfalso; apply Hni. rewrite E. apply in_map, Hin.
Qed.

Theorem attrs_asdict_init kw o omit :
  attrs_init spec kw = Ok o -> attrs_init spec (attrs_asdict spec omit o) = Ok o.
Proof.
  intros H. destruct (attrs_init_inv kw o H) as (vals & -> & Hlen & _ & Hall).
  set (o := combine (map a_name spec) vals). set (d := attrs_asdict spec omit o).
  assert (Hnames : map fst o = map a_name spec) by (apply map_fst_combine; rewrite map_length; lia).
  assert (Hsub : forall kv, In kv d -> In kv o) by (intros kv Hin; eapply proj1, filter_In, Hin).
  unfold attrs_init.
  assert (Hk : forallb (fun kv => str_mem (fst kv) (map a_name spec)) d = true).
  { apply forallb_forall. intros kv Hin. apply str_mem_In. rewrite <- Hnames. apply in_map, Hsub, Hin. }
  rewrite Hk. cbn [negb].
  assert (Hm : mapM (init_attr d) spec = Ok vals).
  { apply mapM_Ok_iff.
    assert (Hall' : forall a v, In (a, v) (combine spec vals) -> init_attr d a = Ok v).
    { intros a v Hin. destruct (Hall a v Hin) as [Hi Hv].
      assert (Ha : In a spec) by (apply in_combine_l in Hin; exact Hin).
      destruct (spec_ok a Ha) as (S1 & S2 & S3).
      unfold init_attr, d, attrs_asdict. rewrite dget_filter by (rewrite Hnames; exact names_nodup).
      unfold o. rewrite (dget_combine a v vals Hlen Hin). cbn [fst snd]. rewrite (find_name a Ha).
      destruct (omit && py_eq v (a_default a)) eqn:E; cbn [negb getdef].
      - apply andb_true_iff in E. destruct E as [_ E]. rewrite (S3 _ _ Hi Hv E). exact S2.
      - apply (S1 _ _ Hi Hv). }
    apply Forall2_combine; [symmetry; exact Hlen|exact Hall']. }
  rewrite Hm. cbn [bind].
  assert (Hv : exists us, mapM (fun av : aspec * json => a_valid (fst av) (snd av)) (combine spec vals) = Ok us).
  { exists (map (fun _ => tt) (combine spec vals)). apply mapM_Ok. intros [a v] Hin. cbn [fst snd].
    apply (Hall a v Hin). }
  destruct Hv as [us ->]. reflexivity.
Qed.
End Attrs.

(** ** Dialect *)
Section Codecs.
Variable codec : pystr -> codec_result.
Hypothesis utf8_known : codec (lit "utf-8") = CKnown.

Lemma dialect_names_spec : map a_name (dialect_spec codec) = dialect_names.
Proof. reflexivity. Qed.
Lemma dialect_names_nodup : NoDup dialect_names.
Proof.
  unfold dialect_names. repeat (constructor; [cbn; intuition discriminate|]). constructor.
Qed.

Lemma conv_enc_idem v w : convert_encoding codec v = Ok w -> convert_encoding codec w = Ok w.
Proof.
  assert (Hs : forall s, convert_encoding codec (JStr s) =
    match codec (encoding_map s) with CKnown => Ok (JStr s) | CUnknown => Ok (JStr (lit "utf-8")) | CRaises e => Err e end)
    by reflexivity.
  assert (Hu : convert_encoding codec (JStr (lit "utf-8")) = Ok (JStr (lit "utf-8"))).
  { rewrite Hs. change (encoding_map (lit "utf-8")) with (lit "utf-8"). rewrite utf8_known. reflexivity. }
  intros H. unfold convert_encoding in H.
  destruct (converter TStr (JStr (lit "utf-8")) false no_cond v) as [| | | |s| |]; try discriminate.
  destruct (codec (encoding_map s)) eqn:E; try discriminate; injection H as <-; [|exact Hu].
  rewrite Hs, E. reflexivity.
Qed.

Lemma py_eq_bool v b : is_bool v -> py_eq v (JBool b) = true -> v = JBool b.
Proof. intros [c ->]. destruct b, c; cbn; congruence. Qed.
Lemma valid_bool v : valid_type TBool v = Ok tt -> is_bool v.
Proof. destruct v; cbn; try discriminate. eexists; reflexivity. Qed.
Lemma valid_str v : valid_type TStr v = Ok tt -> is_str v.
Proof. destruct v; cbn; try discriminate. eexists; reflexivity. Qed.

Lemma conv_int_count d v w : is_count d -> converter TInt d false nonneg v = w ->
  valid_nonneg w = Ok tt -> is_count w.
Proof.
  intros Hd <-. destruct v as [|b|z|r|s|l|kvs]; cbn; auto.
  - destruct (Z.leb_spec 0 z); [|auto]. cbn. intros _. exists z. split; [reflexivity|assumption].
  - discriminate.
Qed.

Lemma bool_aspec_ok n d : is_bool d -> aspec_ok (mk n d (converter TBool d false no_cond) (valid_type TBool)).
Proof.
  intros [b ->]. repeat split; cbn [a_conv a_default a_valid mk].
  - intros v w H _. apply Ok_inj in H; subst w. f_equal. apply converter_idem; try discriminate. reflexivity.
  - intros v w H Hv E. apply py_eq_bool; [apply valid_bool, Hv|exact E].
Qed.
Lemma int_aspec_ok n z : (0 <= z)%Z -> aspec_ok (mk n (JInt z) (converter TInt (JInt z) false nonneg) valid_nonneg).
Proof.
  intros Hz. repeat split; cbn [a_conv a_default a_valid mk].
  - intros v w H _. apply Ok_inj in H; subst w. f_equal. apply converter_idem; try discriminate.
    cbn. apply Z.leb_le, Hz.
  - f_equal. cbn. apply Z.leb_le in Hz. rewrite Hz. reflexivity.
  - intros v w H Hv E. assert (Hc : is_count w).
    { apply Ok_inj in H. apply (conv_int_count (JInt z) v w); [exists z; split; [reflexivity|exact Hz]|exact H|exact Hv]. }
    destruct Hc as (y & -> & Hy). cbn in E. apply Z.eqb_eq in E. congruence.
Qed.
Lemma str_aspec_ok n s an valid : aspec_ok (mk n (JStr s) (converter TStr (JStr s) an no_cond) valid).
Proof.
  repeat split; cbn [a_conv a_default a_valid mk].
  - intros v w H _. apply Ok_inj in H; subst w. f_equal. apply converter_idem; try discriminate. reflexivity.
  - intros v w H Hv E. apply py_eq_str, E.
Qed.

Lemma dialect_spec_ok a : In a (dialect_spec codec) -> aspec_ok a.
Proof.
  intros H. unfold dialect_spec in H. cbn [In] in H.
  repeat (destruct H as [<-|H]); try contradiction.
  - repeat split; cbn [a_conv a_default a_valid].
    + intros v w Hc _. apply conv_enc_idem with v, Hc.
    + unfold convert_encoding. cbn [converter isinst no_cond andb].
      change (encoding_map (lit "utf-8")) with (lit "utf-8"). rewrite utf8_known. reflexivity.
    + intros v w _ _ E. apply py_eq_str, E.
  - repeat split; cbn [a_conv a_default a_valid mk].
    + intros v w Hc _. apply Ok_inj in Hc; subst w. f_equal. destruct v; reflexivity.
    + intros v w _ _ E. apply (py_eq_strs w [[CR; LF]; [LF]] E).
  - apply str_aspec_ok.
  - apply bool_aspec_ok. eexists; reflexivity.
  - apply int_aspec_ok. lia.
  - apply str_aspec_ok.
  - apply bool_aspec_ok. eexists; reflexivity.
  - apply int_aspec_ok. lia.
  - apply str_aspec_ok.
  - apply int_aspec_ok. lia.
  - apply bool_aspec_ok. eexists; reflexivity.
  - apply bool_aspec_ok. eexists; reflexivity.
  - repeat split; cbn [a_conv a_default a_valid mk].
    + intros v w _ Hv. destruct w; try discriminate. reflexivity.
    + intros v w _ _ E. apply py_eq_str, E.
Qed.

Theorem dialect_asdict_roundtrip kw o omit :
  dialect_init codec kw = Ok o -> dialect_init codec (dialect_asdict codec omit o) = Ok o.
Proof.
  apply attrs_asdict_init; [rewrite dialect_names_spec; apply dialect_names_nodup|apply dialect_spec_ok].
Qed.

(** all attributes are there, in order *)
Theorem dialect_init_names kw o : dialect_init codec kw = Ok o -> map fst o = dialect_names.
Proof.
  intros H. apply attrs_init_inv in H. destruct H as (vals & -> & Hlen & _).
  rewrite <- dialect_names_spec. apply map_fst_combine. rewrite map_length. symmetry; exact Hlen.
Qed.

(** one attribute of a constructed dialect *)
Lemma dialect_init_attr kw o n v :
  dialect_init codec kw = Ok o -> dget str_eqb o n = Some v ->
  exists a, In a (dialect_spec codec) /\ a_name a = n /\ init_attr kw a = Ok v /\ a_valid a v = Ok tt.
Proof.
  intros H Hg. apply attrs_init_inv in H. destruct H as (vals & -> & Hlen & _ & Hall).
  rewrite combine_map_fst in Hg by lia.
  assert (Hin : exists a, In (a, v) (combine (dialect_spec codec) vals) /\ a_name a = n).
  { clear -Hg. induction (combine (dialect_spec codec) vals) as [|[a w] l IH]; cbn in Hg; [discriminate|].
    destruct (str_eqb_spec n (a_name a)) as [->|].
    - injection Hg as ->. exists a; split; [left; reflexivity|reflexivity].
    - destruct (IH Hg) as (b & Hb & E). exists b; split; [right; exact Hb|exact E]. }
  destruct Hin as (a & Hin & E). exists a.
  split; [apply in_combine_l in Hin; exact Hin|]. split; [exact E|]. apply Hall, Hin.
Qed.

Lemma conv_str_opt d v w : converter TStr (JStr d) true no_cond v = w -> w = JNull \/ is_str w \/ is_listv w.
Proof.
  intros <-. destruct v; cbn; unfold is_str, is_listv; eauto.
Qed.

Theorem dialect_init_typed kw o n v :
  dialect_init codec kw = Ok o -> dget str_eqb o n = Some v ->
  attr_ok codec n v \/ (n = lit "quoteChar" /\ is_listv v).
Proof.
  intros H Hg. destruct (dialect_init_attr kw o n v H Hg) as (a & Ha & <- & Hi & Hv).
  unfold init_attr in Hi. revert Hi. generalize (getdef (dget str_eqb kw (a_name a)) (a_default a)) as x. intros x Hi.
  unfold dialect_spec in Ha. cbn [In] in Ha. unfold attr_ok.
  repeat (destruct Ha as [<-|Ha]); try contradiction;
    cbn [a_name a_conv a_valid a_default mk] in *.
  - left; left. split; [reflexivity|]. unfold convert_encoding in Hi.
    destruct (converter TStr (JStr (lit "utf-8")) false no_cond x) as [| | | |s| |]; try discriminate.
    destruct (codec (encoding_map s)) eqn:E; try discriminate; injection Hi as <-.
    + exists s. split; [reflexivity|exact E].
    + exists (lit "utf-8"). split; [reflexivity|exact utf8_known].
  - left; right; left. split; [reflexivity|]. apply Ok_inj in Hi; subst v. destruct x; eexists; reflexivity.
  - apply Ok_inj in Hi. destruct (conv_str_opt _ _ _ Hi) as [E|[E|E]].
    + left; right; right; left. auto.
    + left; right; right; left. auto.
    + right. auto.
  - left; do 3 right; left. split; [reflexivity|apply valid_bool, Hv].
  - left; do 4 right; left. split; [reflexivity|]. apply Ok_inj in Hi.
    eapply conv_int_count; [|exact Hi|exact Hv]. exists 0%Z; split; [reflexivity|lia].
  - left; do 5 right; left. split; [reflexivity|]. destruct v; auto; right; apply valid_str, Hv.
  - left; do 6 right; left. split; [reflexivity|apply valid_bool, Hv].
  - left; do 7 right; left. split; [reflexivity|]. apply Ok_inj in Hi.
    eapply conv_int_count; [|exact Hi|exact Hv]. exists 1%Z; split; [reflexivity|lia].
  - left; do 8 right; left. split; [reflexivity|apply valid_str, Hv].
  - left; do 9 right; left. split; [reflexivity|]. apply Ok_inj in Hi.
    eapply conv_int_count; [|exact Hi|exact Hv]. exists 0%Z; split; [reflexivity|lia].
  - left; do 10 right; left. split; [reflexivity|apply valid_bool, Hv].
  - left; do 11 right; left. split; [reflexivity|apply valid_bool, Hv].
  - left; do 12 right. split; [reflexivity|]. destruct v as [| | | |s| |]; try discriminate.
    exists s; split; [reflexivity|]. destruct (str_mem s trim_words) eqn:E; [|discriminate].
    apply str_mem_In in E. cbn in E. intuition auto.
Qed.

(** valid values are taken over unchanged, absent ones get the default *)
Lemma dialect_default_spec a : In a (dialect_spec codec) -> a_default a = dialect_default (a_name a).
Proof.
  intros Ha. unfold dialect_spec in Ha. cbn [In] in Ha.
  repeat (destruct Ha as [<-|Ha]); try contradiction; reflexivity.
Qed.
Lemma conv_ok_id a v : In a (dialect_spec codec) -> attr_ok codec (a_name a) v -> a_conv a v = Ok v.
Proof.
  intros Ha Hok. unfold dialect_spec in Ha. cbn [In] in Ha.
  repeat (destruct Ha as [<-|Ha]); try contradiction; cbn [a_name a_conv mk] in *; unfold attr_ok in Hok;
    repeat (destruct Hok as [[E Hok]|Hok]; [try discriminate E|]); try (destruct Hok as [E Hok]; try discriminate E).
  - destruct Hok as (s & -> & Hs). unfold convert_encoding. cbn [converter isinst no_cond andb].
    fold (encoding_map s) in Hs. rewrite Hs. reflexivity.
  - destruct Hok as [l ->]. reflexivity.
  - destruct Hok as [->|[s ->]]; reflexivity.
  - destruct Hok as [b ->]; reflexivity.
  - destruct Hok as (z & -> & Hz). apply Z.leb_le in Hz. cbn. rewrite Hz. reflexivity.
  - destruct Hok as [->|[s ->]]; reflexivity.
  - destruct Hok as [b ->]; reflexivity.
  - destruct Hok as (z & -> & Hz). apply Z.leb_le in Hz. cbn. rewrite Hz. reflexivity.
  - destruct Hok as [s ->]; reflexivity.
  - destruct Hok as (z & -> & Hz). apply Z.leb_le in Hz. cbn. rewrite Hz. reflexivity.
  - destruct Hok as [b ->]; reflexivity.
  - destruct Hok as [b ->]; reflexivity.
  - destruct Hok as (s & -> & _). reflexivity.
Qed.

Theorem dialect_init_keeps kw o n v :
  dialect_init codec kw = Ok o -> In n dialect_names ->
  match dget str_eqb kw n with Some x => x = v /\ attr_ok codec n v | None => v = dialect_default n end ->
  dget str_eqb o n = Some v.
Proof.
  intros H Hn Hv.
  destruct (dget str_eqb o n) as [w|] eqn:Hg.
  - destruct (dialect_init_attr kw o n w H Hg) as (a & Ha & <- & Hi & _).
    unfold init_attr in Hi. destruct (dget str_eqb kw (a_name a)) as [x|]; cbn [getdef] in Hi.
    + destruct Hv as [-> Hok]. rewrite (conv_ok_id a v Ha Hok) in Hi. congruence.
    + subst v. destruct (dialect_spec_ok a Ha) as (_ & S2 & _). rewrite S2 in Hi.
      rewrite <- (dialect_default_spec a Ha). congruence.
  - exfalso. rewrite <- (dialect_init_names kw o H) in Hn. clear -Hn Hg.
    induction o as [|[k w] o IH]; cbn in *; [exact Hn|].
    destruct (str_eqb_spec n k) as [->|Hne]; [discriminate|]. destruct Hn as [->|Hn]; [congruence|auto].
Qed.

(** invalid scalars are replaced by the default *)
Theorem dialect_init_replaces kw o n x :
  dialect_init codec kw = Ok o -> In n dialect_names ->
  dget str_eqb kw n = Some x -> ~ attr_ok codec n x -> ~ is_listv x -> (n = lit "trim" -> ~ is_bool x) ->
  dget str_eqb o n = Some (dialect_default n).
Proof.
  intros H Hn Hx Hbad Hl Ht.
  destruct (dget str_eqb o n) as [w|] eqn:Hg.
  2:{ exfalso. rewrite <- (dialect_init_names kw o H) in Hn. clear -Hn Hg.
    induction o as [|[k w] o IH]; cbn in *; [exact Hn|].
    destruct (str_eqb_spec n k) as [->|Hne]; [discriminate|]. destruct Hn as [->|Hn]; [congruence|auto]. }
  destruct (dialect_init_attr kw o n w H Hg) as (a & Ha & <- & Hi & Hv).
  unfold init_attr in Hi. rewrite Hx in Hi. cbn [getdef] in Hi. f_equal.
  rewrite <- (dialect_default_spec a Ha). clear Hx Hg Hn.
  unfold dialect_spec in Ha. cbn [In] in Ha. unfold attr_ok in Hbad.
  repeat (destruct Ha as [<-|Ha]); try contradiction; cbn [a_name a_conv a_default a_valid mk] in *;
    try (injection Hi as <-);
    try (destruct x; cbn in *; try reflexivity; exfalso;
         try (apply Hl; eexists; reflexivity);
         apply Hbad; unfold is_str, is_bool, is_listv; intuition eauto; fail).
  - unfold convert_encoding in Hi. destruct x as [| | | |s|l|]; cbn [converter isinst no_cond andb] in Hi;
      try (rewrite (proj2 (str_eqb_eq _ _) eq_refl) in Hi);
      try (change (encoding_map (lit "utf-8")) with (lit "utf-8") in Hi; rewrite utf8_known in Hi; congruence).
    + destruct (codec (encoding_map s)) eqn:E; try discriminate; [|congruence].
      exfalso; apply Hbad. left. split; [reflexivity|]. exists s. split; [reflexivity|exact E].
    + exfalso; apply Hl; eexists; reflexivity.
  - destruct x as [| |z| | | |]; cbn in *; try reflexivity; try (exfalso; apply Hl; eexists; reflexivity).
    destruct (Z.leb_spec 0 z); [|reflexivity]. exfalso; apply Hbad. do 4 right; left.
    split; [reflexivity|]. exists z; auto.
  - destruct x as [| |z| | | |]; cbn in *; try reflexivity; try (exfalso; apply Hl; eexists; reflexivity).
    destruct (Z.leb_spec 0 z); [|reflexivity]. exfalso; apply Hbad. do 7 right; left.
    split; [reflexivity|]. exists z; auto.
  - destruct x as [| |z| | | |]; cbn in *; try reflexivity; try (exfalso; apply Hl; eexists; reflexivity).
    destruct (Z.leb_spec 0 z); [|reflexivity]. exfalso; apply Hbad. do 9 right; left.
    split; [reflexivity|]. exists z; auto.
  - destruct x as [|b| | |s|l|]; try reflexivity.
    + exfalso; apply (Ht eq_refl). eexists; reflexivity.
    + exfalso. cbn [converter isinst no_cond andb] in Hv. destruct (str_mem s trim_words) eqn:E; [|discriminate].
      apply str_mem_In in E. apply Hbad. do 12 right. split; [reflexivity|]. exists s. split; [reflexivity|].
      cbn in E. intuition auto.
    + exfalso; apply Hl; eexists; reflexivity.
Qed.

(** ** C12 *)
Definition clean (o : dobj) : Prop := c_escape o = None /\ c_terms o = None /\ c_trim o = None.
Definition synced (o : dobj) : Prop :=
  (forall v, c_escape o = Some v -> v = compute_escape (o_attrs o))
  /\ (forall v, c_terms o = Some v -> v = compute_terms (o_attrs o))
  /\ (forall v, c_trim o = Some v -> compute_trim (o_attrs o) = Ok v).

Lemma clean_synced o : clean o -> synced o.
Proof. intros (H1 & H2 & H3). repeat split; intros v E; congruence. Qed.

Lemma get_escape_synced o : synced o ->
  fst (get_escape o) = compute_escape (o_attrs o) /\ synced (snd (get_escape o))
  /\ o_attrs (snd (get_escape o)) = o_attrs o.
Proof.
  intros (S1 & S2 & S3). unfold get_escape. destruct (c_escape o) as [v|] eqn:E; cbn [fst snd].
  - repeat split; auto. intros w Hw. apply S1. congruence.
  - repeat split; auto. intros w Hw. cbn in Hw. injection Hw as <-. reflexivity.
Qed.
Lemma get_terms_synced o : synced o ->
  fst (get_terms o) = compute_terms (o_attrs o) /\ synced (snd (get_terms o))
  /\ o_attrs (snd (get_terms o)) = o_attrs o.
Proof.
  intros (S1 & S2 & S3). unfold get_terms. destruct (c_terms o) as [v|] eqn:E; cbn [fst snd].
  - repeat split; auto. intros w Hw. apply S2. congruence.
  - repeat split; auto. intros w Hw. cbn in Hw. injection Hw as <-. reflexivity.
Qed.
Lemma get_trim_synced o : synced o ->
  fst (get_trim o) = compute_trim (o_attrs o) /\ synced (snd (get_trim o))
  /\ o_attrs (snd (get_trim o)) = o_attrs o.
Proof.
  intros (S1 & S2 & S3). unfold get_trim. destruct (c_trim o) as [v|] eqn:E; cbn [fst snd].
  - repeat split; auto.
    + symmetry. apply S3. reflexivity.
    + intros w Hw. apply S3. congruence.
  - destruct (compute_trim (o_attrs o)) as [v|e] eqn:Ec; cbn [fst snd].
    + repeat split; auto. intros w Hw. cbn in Hw. injection Hw as <-. exact Ec.
    + split; [reflexivity|]. split; [|reflexivity]. split; [exact S1|]. split; [exact S2|].
      intros w Hw. congruence.
Qed.
Lemma get_params_synced o : synced o ->
  fst (get_params o) = params_of (o_attrs o) /\ synced (snd (get_params o))
  /\ o_attrs (snd (get_params o)) = o_attrs o.
Proof.
  intros HS. unfold get_params. cbn [fst snd].
  set (e := if truthy (attr_of (o_attrs o) (lit "doubleQuote")) then (JNull, o) else get_escape o).
  assert (He : synced (snd e) /\ o_attrs (snd e) = o_attrs o /\
    fst e = (if truthy (attr_of (o_attrs o) (lit "doubleQuote")) then JNull
             else match attr_of (o_attrs o) (lit "quoteChar") with JNull => JNull | _ => JStr [92] end)).
  { unfold e. destruct (truthy _) eqn:Et; [auto|].
    destruct (get_escape_synced o HS) as (E1 & E2 & E3). rewrite E1. repeat split; auto; try apply E2.
    unfold compute_escape. rewrite Et. reflexivity. }
  destruct He as (He1 & He2 & He3).
  destruct (get_terms_synced (snd e) He1) as (T1 & T2 & T3).
  split; [|split; [exact T2|congruence]].
  rewrite T1, He2, He3. reflexivity.
Qed.

Lemma run_op_synced o op : synced o -> ~ sets_cached_input op ->
  synced (run_op o op).
Proof.
  intros HS Hop. destruct op as [n v| | | |]; cbn [run_op].
  - assert (Hn : ~ In n cached_inputs) by (intros Hin; apply Hop; exists n, v; auto).
    assert (Ha : forall m, In m cached_inputs -> attr_of (dset str_eqb (o_attrs o) n v) m = attr_of (o_attrs o) m).
    { intros m Hm. unfold attr_of. rewrite (dget_dset str_eqb str_eqb_eq).
      destruct (str_eqb_spec m n) as [->|]; [contradiction|reflexivity]. }
    destruct HS as (S1 & S2 & S3). unfold set_attr, synced; cbn [c_escape c_terms c_trim o_attrs].
    unfold compute_escape, compute_terms, compute_trim in *.
    rewrite !Ha by (cbn; tauto). auto.
  - apply get_escape_synced, HS.
  - apply get_terms_synced, HS.
  - apply get_trim_synced, HS.
  - apply get_params_synced, HS.
Qed.
Lemma run_op_clean o op : clean o -> is_set op -> clean (run_op o op).
Proof. intros H (n & v & ->). exact H. Qed.
Lemma run_ops_synced ops : forall o, synced o -> Forall (fun op => ~ sets_cached_input op) ops -> synced (run_ops o ops).
Proof.
  induction ops as [|op ops IH]; intros o H HF; [exact H|]. inversion HF; subst.
  cbn. apply IH; [apply run_op_synced; assumption|assumption].
Qed.
Lemma run_ops_clean ops : forall o, clean o -> Forall is_set ops -> clean (run_ops o ops).
Proof.
  induction ops as [|op ops IH]; intros o H HF; [exact H|]. inversion HF; subst.
  cbn. apply IH; [apply run_op_clean; assumption|assumption].
Qed.
Lemma fresh_clean a : clean (fresh a).
Proof. repeat split. Qed.

(** assign first, use later: everything reflects the current attributes *)
Theorem params_current a sets ops :
  Forall is_set sets -> Forall (fun op => ~ sets_cached_input op) ops ->
  let o := run_ops (fresh a) (sets ++ ops) in
  fst (get_params o) = params_of (o_attrs o) /\ fst (get_trim o) = compute_trim (o_attrs o).
Proof.
  intros H1 H2 o.
  assert (HS : synced o).
  { unfold o, run_ops. rewrite fold_left_app. fold (run_ops (fresh a) sets).
    apply (run_ops_synced ops); [|exact H2]. apply clean_synced, run_ops_clean; [apply fresh_clean|exact H1]. }
  split; [apply get_params_synced, HS|apply get_trim_synced, HS].
Qed.

(** updated() starts from scratch, whatever was cached before *)
Lemma updated_sets (kw : attrs) : forall o, clean o ->
  clean (fold_left (fun acc kv => set_attr acc (fst kv) (snd kv)) kw o)
  /\ o_attrs (fold_left (fun acc kv => set_attr acc (fst kv) (snd kv)) kw o) = dset_all str_eqb (o_attrs o) kw.
Proof.
  induction kw as [|[k v] kw IH]; intros o H; [split; [exact H|reflexivity]|].
  cbn [fold_left fst snd]. apply (IH (set_attr o k v)). exact H.
Qed.
Theorem updated_fresh o kw o' :
  updated codec o kw = Ok o' ->
  fst (get_params o') = params_of (o_attrs o') /\ fst (get_trim o') = compute_trim (o_attrs o')
  /\ exists base, dialect_init codec (o_attrs o) = Ok base /\ o_attrs o' = dset_all str_eqb base kw.
Proof.
  unfold updated. destruct (dialect_init codec (o_attrs o)) as [a|] eqn:E; cbn [bind]; [|discriminate].
  intros H. injection H as <-. destruct (updated_sets kw (fresh a) (fresh_clean a)) as [Hc Ha].
  apply clean_synced in Hc. split; [apply get_params_synced, Hc|]. split; [apply get_trim_synced, Hc|].
  exists a. split; [reflexivity|exact Ha].
Qed.
End Codecs.

(** ** Link to the typed dialects of Dsv.v *)
Definition opt_json (o : option pystr) : json := match o with Some s => JStr s | None => JNull end.
Definition params_of_kw (k : csv_kw) : params :=
  {| p_delimiter := opt_json (k_delimiter k); p_doublequote := match k_doublequote k with Some b => JBool b | None => JNull end;
     p_escapechar := opt_json (getdef (k_escapechar k) None);
     p_lineterminator := opt_json (k_lineterminator k);
     p_quotechar := opt_json (getdef (k_quotechar k) None);
     p_skipinitialspace := match k_skipinitialspace k with Some b => JBool b | None => JNull end |}.

Lemma j_strs_map l r : j_strs l = Some r -> l = map JStr r.
Proof.
  revert r; induction l as [|x l IH]; intros r H; cbn in H; [injection H as <-; reflexivity|].
  destruct x; try discriminate. destruct (j_strs l) as [t|]; [|discriminate]. injection H as <-.
  cbn. rewrite (IH t eq_refl). reflexivity.
Qed.
Lemma j_strs_of l : j_strs (map JStr l) = Some l.
Proof. induction l as [|x l IH]; cbn; [reflexivity|]. rewrite IH; reflexivity. Qed.

Theorem typed_params a d :
  to_dialect a = Some d ->
  params_of a = (k <- as_python_formatting_parameters d ;; Ok (params_of_kw k))
  /\ compute_trim a = Ok (d_trim d).
Proof.
  unfold to_dialect. fold (attr_of a).
  destruct (j_str (attr_of a (lit "encoding"))) as [e|]; [|discriminate].
  destruct (match attr_of a (lit "lineTerminators") with JList l => j_strs l | JStr s => Some [s] | _ => None end) as [l|] eqn:El; [|discriminate].
  destruct (j_optstr (attr_of a (lit "quoteChar"))) as [q|] eqn:Eq; [|discriminate].
  destruct (j_bool (attr_of a (lit "doubleQuote"))) as [dq|] eqn:Edq; [|discriminate].
  destruct (j_nat (attr_of a (lit "skipRows"))) as [sr|]; [|discriminate].
  destruct (j_optstr (attr_of a (lit "commentPrefix"))) as [cp|]; [|discriminate].
  destruct (j_bool (attr_of a (lit "header"))) as [h|]; [|discriminate].
  destruct (j_nat (attr_of a (lit "headerRowCount"))) as [hc|]; [|discriminate].
  destruct (j_str (attr_of a (lit "delimiter"))) as [dl|] eqn:Edl; [|discriminate].
  destruct (j_nat (attr_of a (lit "skipColumns"))) as [sc|]; [|discriminate].
  destruct (j_bool (attr_of a (lit "skipBlankRows"))) as [sb|]; [|discriminate].
  destruct (j_bool (attr_of a (lit "skipInitialSpace"))) as [si|] eqn:Esi; [|discriminate].
  destruct (j_trim (attr_of a (lit "trim"))) as [t|] eqn:Et; [|discriminate].
  intros H; injection H as <-.
  unfold params_of, as_python_formatting_parameters, compute_trim, escape_character. fold (attr_of a).
  change (getdef (dget str_eqb a (lit "lineTerminators")) JNull) with (attr_of a (lit "lineTerminators")).
  change (getdef (dget str_eqb a (lit "quoteChar")) JNull) with (attr_of a (lit "quoteChar")).
  change (getdef (dget str_eqb a (lit "doubleQuote")) JNull) with (attr_of a (lit "doubleQuote")).
  change (getdef (dget str_eqb a (lit "delimiter")) JNull) with (attr_of a (lit "delimiter")).
  change (getdef (dget str_eqb a (lit "skipInitialSpace")) JNull) with (attr_of a (lit "skipInitialSpace")).
  cbn [d_lineTerminators d_quoteChar d_doubleQuote d_delimiter d_skipInitialSpace d_trim].
  destruct (attr_of a (lit "doubleQuote")); try discriminate. injection Edq as <-.
  destruct (attr_of a (lit "delimiter")); try discriminate. injection Edl as <-.
  destruct (attr_of a (lit "skipInitialSpace")); try discriminate. injection Esi as <-.
  split.
  - assert (Hl : match attr_of a (lit "lineTerminators") with JStr s => JList [JStr s] | v => v end = JList (map JStr l)).
    { destruct (attr_of a (lit "lineTerminators")); try discriminate; [injection El as <-; reflexivity|].
      apply j_strs_map in El. congruence. }
    rewrite Hl. destruct l as [|lt l]; cbn [map item0 bind]; [reflexivity|]. unfold params_of_kw. cbn [getdef opt_json
      k_delimiter k_doublequote k_escapechar k_lineterminator k_quotechar k_skipinitialspace].
    f_equal. destruct (attr_of a (lit "quoteChar")); try discriminate; injection Eq as <-; destruct b; reflexivity.
  - destruct (attr_of a (lit "trim")); try discriminate. cbn in Et. rewrite Et. reflexivity.
Qed.

(** attr_ok by name *)
Lemma okn codec n v : attr_ok codec n v ->
  if str_eqb n (lit "encoding") then exists s, v = JStr s
     /\ codec (if str_eqb s (lit "UTF-8-BOM") then lit "utf-8-sig" else s) = CKnown
  else if str_eqb n (lit "lineTerminators") then is_listv v
  else if str_eqb n (lit "quoteChar") then v = JNull \/ is_str v
  else if str_eqb n (lit "doubleQuote") then is_bool v
  else if str_eqb n (lit "skipRows") then is_count v
  else if str_eqb n (lit "commentPrefix") then v = JNull \/ is_str v
  else if str_eqb n (lit "header") then is_bool v
  else if str_eqb n (lit "headerRowCount") then is_count v
  else if str_eqb n (lit "delimiter") then is_str v
  else if str_eqb n (lit "skipColumns") then is_count v
  else if str_eqb n (lit "skipBlankRows") then is_bool v
  else if str_eqb n (lit "skipInitialSpace") then is_bool v
  else exists s, v = JStr s /\ (s = lit "true" \/ s = lit "false" \/ s = lit "start" \/ s = lit "end").
Proof.
  intros K. unfold attr_ok in K.
  repeat match type of K with _ \/ _ => destruct K as [[-> K]|K]; [exact K|] end.
  destruct K as [-> K]. exact K.
Qed.

(** every constructed dialect whose quoteChar is not a list and whose line
    terminators are strings is such a typed dialect *)
Theorem constructed_typed codec (utf8_known : codec (lit "utf-8") = CKnown) kw o lts :
  dialect_init codec kw = Ok o ->
  dget str_eqb o (lit "lineTerminators") = Some (JList (map JStr lts)) ->
  (forall l, dget str_eqb o (lit "quoteChar") <> Some (JList l)) ->
  exists d, to_dialect o = Some d.
Proof.
  intros H Hlt Hq.
  assert (Hget : forall n, In n dialect_names -> exists v, dget str_eqb o n = Some v
     /\ (attr_ok codec n v \/ (n = lit "quoteChar" /\ is_listv v))).
  { intros n Hn. rewrite <- (dialect_init_names codec kw o H) in Hn.
    assert (Hg : exists v, dget str_eqb o n = Some v).
    { clear -Hn. induction o as [|[k w] o IH]; cbn in *; [contradiction|].
      destruct (str_eqb_spec n k) as [->|Hne]; [eexists; reflexivity|].
      destruct Hn as [->|Hn]; [congruence|auto]. }
    destruct Hg as [v Hg]. exists v. split; [exact Hg|]. eapply dialect_init_typed; eassumption. }
  assert (Hattr : forall n v, dget str_eqb o n = Some v -> attr_of o n = v)
    by (intros n v E; unfold attr_of; rewrite E; reflexivity).
  unfold to_dialect.
  assert (Hcount : forall n v, attr_of o n = v -> is_count v -> exists k, j_nat (attr_of o n) = Some k).
  { intros n v E (z & -> & Hz). rewrite E. cbn. apply Z.leb_le in Hz. rewrite Hz. eexists; reflexivity. }
  destruct (Hget (lit "encoding")) as (v1 & E1 & K1); [apply str_mem_In; reflexivity|]. apply Hattr in E1. rewrite E1. clear E1.
  destruct (Hget (lit "quoteChar")) as (v2 & E2 & K2); [apply str_mem_In; reflexivity|]. assert (Q := Hq). rewrite E2 in Q. apply Hattr in E2. rewrite E2. clear E2.
  destruct (Hget (lit "doubleQuote")) as (v3 & E3 & K3); [apply str_mem_In; reflexivity|]. apply Hattr in E3. rewrite E3. clear E3.
  destruct (Hget (lit "skipRows")) as (v4 & E4 & K4); [apply str_mem_In; reflexivity|]. apply Hattr in E4. rewrite E4. clear E4.
  destruct (Hget (lit "commentPrefix")) as (v5 & E5 & K5); [apply str_mem_In; reflexivity|]. apply Hattr in E5. rewrite E5. clear E5.
  destruct (Hget (lit "header")) as (v6 & E6 & K6); [apply str_mem_In; reflexivity|]. apply Hattr in E6. rewrite E6. clear E6.
  destruct (Hget (lit "headerRowCount")) as (v7 & E7 & K7); [apply str_mem_In; reflexivity|]. apply Hattr in E7. rewrite E7. clear E7.
  destruct (Hget (lit "delimiter")) as (v8 & E8 & K8); [apply str_mem_In; reflexivity|]. apply Hattr in E8. rewrite E8. clear E8.
  destruct (Hget (lit "skipColumns")) as (v9 & E9 & K9); [apply str_mem_In; reflexivity|]. apply Hattr in E9. rewrite E9. clear E9.
  destruct (Hget (lit "skipBlankRows")) as (v10 & E10 & K10); [apply str_mem_In; reflexivity|]. apply Hattr in E10. rewrite E10. clear E10.
  destruct (Hget (lit "skipInitialSpace")) as (v11 & E11 & K11); [apply str_mem_In; reflexivity|]. apply Hattr in E11. rewrite E11. clear E11.
  destruct (Hget (lit "trim")) as (v12 & E12 & K12); [apply str_mem_In; reflexivity|]. apply Hattr in E12. rewrite E12. clear E12.
  apply Hattr in Hlt. rewrite Hlt, j_strs_of. clear Hlt Hget Hattr Hcount Hq H.
  destruct K1 as [K1|[K1 _]]; [|discriminate K1]. apply okn in K1. destruct K1 as (s1 & -> & _). cbn [j_str].
  assert (K2' : v2 = JNull \/ is_str v2).
  { destruct K2 as [K|[_ [l ->]]]; [apply okn in K; exact K|exfalso; eapply Q; reflexivity]. }
  assert (K2'' : exists q, j_optstr v2 = Some q) by (destruct K2' as [->|[s ->]]; eexists; reflexivity).
  destruct K2'' as [q ->].
  destruct K3 as [K3|[K3 _]]; [|discriminate K3]. apply okn in K3. destruct K3 as [b3 ->]. cbn [j_bool].
  destruct K4 as [K4|[K4 _]]; [|discriminate K4]. apply okn in K4. destruct K4 as (z4 & -> & Z4). apply Z.leb_le in Z4. cbn [j_nat]. rewrite Z4.
  destruct K5 as [K5|[K5 _]]; [|discriminate K5]. apply okn in K5.
  assert (K5' : exists q, j_optstr v5 = Some q) by (destruct K5 as [->|[s ->]]; eexists; reflexivity).
  destruct K5' as [cp ->].
  destruct K6 as [K6|[K6 _]]; [|discriminate K6]. apply okn in K6. destruct K6 as [b6 ->]. cbn [j_bool].
  destruct K7 as [K7|[K7 _]]; [|discriminate K7]. apply okn in K7. destruct K7 as (z7 & -> & Z7). apply Z.leb_le in Z7. cbn [j_nat]. rewrite Z7.
  destruct K8 as [K8|[K8 _]]; [|discriminate K8]. apply okn in K8. destruct K8 as [s8 ->]. cbn [j_str].
  destruct K9 as [K9|[K9 _]]; [|discriminate K9]. apply okn in K9. destruct K9 as (z9 & -> & Z9). apply Z.leb_le in Z9. cbn [j_nat]. rewrite Z9.
  destruct K10 as [K10|[K10 _]]; [|discriminate K10]. apply okn in K10. destruct K10 as [b10 ->]. cbn [j_bool].
  destruct K11 as [K11|[K11 _]]; [|discriminate K11]. apply okn in K11. destruct K11 as [b11 ->]. cbn [j_bool].
  destruct K12 as [K12|[K12 _]]; [|discriminate K12]. apply okn in K12.
  destruct K12 as (s12 & -> & [->|[->|[->| ->]]]); eexists; reflexivity.
Qed.

(** ** Witnesses *)
Definition codec_all (_ : pystr) : codec_result := CKnown.
Lemma quotechar_list_witness : exists kw o,
  dialect_init codec_all kw = Ok o
  /\ dget str_eqb o (lit "quoteChar") = Some (JList [JStr (lit "a"); JStr (lit "b")]).
Proof. exists [(lit "quoteChar", JList [JStr (lit "a"); JInt 1; JStr (lit "b")])]. eexists. vm_compute. split; reflexivity. Qed.

Lemma stale_witness : exists a ops,
  dialect_init codec_all [] = Ok a
  /\ let o := run_ops (fresh a) ops in
     fst (get_params o) <> params_of (o_attrs o) /\ fst (get_trim o) <> trimming_of (o_attrs o).
Proof.
  eexists. exists [OpParams; OpTrim; OpSet (lit "lineTerminators") (JList [JStr [LF]]); OpSet (lit "trim") (JStr (lit "true"))].
  split; [vm_compute; reflexivity|]. vm_compute. split; discriminate.
Qed.
(** assignment bypasses validation, so updated() can yield an object the constructor rejects *)
Lemma updated_unchecked_witness : exists a o',
  dialect_init codec_all [] = Ok a /\ updated codec_all (fresh a) [(lit "trim", JStr (lit "bogus"))] = Ok o'
  /\ dialect_init codec_all (o_attrs o') = Err ValueError.
Proof. eexists. eexists. split; [vm_compute; reflexivity|]. split; [vm_compute; reflexivity|]. vm_compute. reflexivity. Qed.

Example demo_dialect_init : exists o,
  dialect_init codec_all [(lit "delimiter", JStr (lit ";")); (lit "skipRows", JInt (-1)); (lit "trim", JBool true);
                          (lit "header", JInt 1)] = Ok o
  /\ dget str_eqb o (lit "delimiter") = Some (JStr (lit ";"))
  /\ dget str_eqb o (lit "skipRows") = Some (JInt 0)
  /\ dget str_eqb o (lit "trim") = Some (JStr (lit "true"))
  /\ dialect_asdict codec_all true o = [(lit "delimiter", JStr (lit ";")); (lit "trim", JStr (lit "true"))].
Proof. eexists. vm_compute. repeat split. Qed.

Lemma compute_trim_spec a : compute_trim a = trimming_of a.
Proof.
  unfold compute_trim, trimming_of, attr_of, trim_of_word.
  destruct (getdef (dget str_eqb a (lit "trim")) JNull); try reflexivity.
  repeat (destruct (str_eqb _ _); [reflexivity|]). reflexivity.
Qed.
Theorem params_current' a sets ops :
  Forall is_set sets -> Forall (fun op => ~ sets_cached_input op) ops ->
  let o := run_ops (fresh a) (sets ++ ops) in
  fst (get_params o) = params_of (o_attrs o) /\ fst (get_trim o) = trimming_of (o_attrs o).
Proof. intros H1 H2 o. rewrite <- compute_trim_spec. exact (params_current a sets ops H1 H2). Qed.
Theorem updated_fresh' codec o kw o' :
  updated codec o kw = Ok o' ->
  fst (get_params o') = params_of (o_attrs o') /\ fst (get_trim o') = trimming_of (o_attrs o')
  /\ exists base, dialect_init codec (o_attrs o) = Ok base /\ o_attrs o' = dset_all str_eqb base kw.
Proof. rewrite <- compute_trim_spec. apply updated_fresh. Qed.
Theorem typed_params' a d :
  to_dialect a = Some d ->
  params_of a = (k <- as_python_formatting_parameters d ;; Ok (params_of_kw k))
  /\ trimming_of a = Ok (d_trim d).
Proof. rewrite <- compute_trim_spec. apply typed_params. Qed.
