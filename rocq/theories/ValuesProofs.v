From Verif Require Import PyStr Json Dsv Dec Numeric NumericSpec NumericProofs Basic BasicSpec BasicProofs DecProofs2 Dates Datatype DatatypeSpec Column ColumnSpec ColumnProofs ColumnProofs2 Values ValuesSpec.
From Coq Require Import Lia.

Lemma typed_roundtrip babel udigit t v : typed_value babel udigit t v ->
  exists s, dt_fmt t v = Ok s /\ dt_reads t s = Ok v.
Proof.
  intros H. destruct H as [F s Hv|fmt F b Hf Hv|name r F z Hn Hr Hz Hv|F neg c e Hp Hc Hv|F b Hb Hv]; cbn [dt_fmt dt_reads dt_string dt_boolean dt_integer dt_decimal dt_hex mk_dtype]; unfold dt_read.
  - exists s. split; [reflexivity|]. cbn [bind]. exact Hv.
  - eexists. split; [reflexivity|]. rewrite bool_roundtrip by exact Hf. cbn [bind]. exact Hv.
  - destruct (integer_roundtrip udigit babel name r z Hn Hz Hr) as (s & H1 & H2). exists s. split; [exact H1|].
    rewrite H2. cbn [bind]. exact Hv.
  - destruct (decimal_roundtrip udigit babel neg c e (proj1 Hp) Hc) as (s & H1 & neg' & H2 & _ & H3). exists s.
    split; [exact H1|]. rewrite H2, (H3 Hp). cbn [bind]. exact Hv.
  - eexists. split; [reflexivity|]. rewrite hex_roundtrip by exact Hb. cbn [bind]. exact Hv.
Qed.

(** numbers are written with digits, '-' and '.' only, and never as the empty string *)
Lemma numeral_chars neg ip p fp : numeral_ok ip p fp -> numeral neg false ip p fp <> [] /\ Forall number_char (numeral neg false ip p fp).
Proof.
  intros (Hd & Hne & Hp). unfold numeral. split.
  - intros E. apply app_eq_nil in E. destruct E as [_ E]. apply app_eq_nil in E. destruct E as [-> E].
    destruct p; [discriminate|]. rewrite (Hp eq_refl) in Hne. apply Hne; reflexivity.
  - apply Forall_app in Hd. destruct Hd as [H1 H2].
    assert (HI : forall l, Forall (fun c => 48 <= c <= 57) l -> Forall number_char l).
    { intros l. apply Forall_impl. intros c Hc. left; exact Hc. }
    apply Forall_app. split.
    + destruct neg; [|constructor]. constructor; [right; left; reflexivity|constructor].
    + apply Forall_app. split; [apply HI, H1|]. destruct p; [|constructor].
      apply Forall_app. split; [|apply HI, H2]. constructor; [right; right; reflexivity|constructor].
Qed.
Lemma number_text babel udigit t v s : typed_value babel udigit t v -> number_value v -> dt_fmt t v = Ok s ->
  s <> [] /\ Forall number_char s.
Proof.
  intros H Hn Hs. destruct H as [F s0 Hv|fmt F b Hf Hv|name r F z Hin Hr Hz Hv|F neg c e Hp Hc Hv|F b Hb Hv]; try contradiction.
  - cbn [dt_fmt dt_integer mk_dtype] in Hs. rewrite (num_int_dec udigit) in Hs. cbn [nofmt nf_pattern Numeric.truthy_str] in Hs.
    destruct (to_string_plain udigit babel (Z.ltb z 0) (Z.to_N (Z.abs z)) 0) as (ip & fp & Ht & Hok & _ & _);
      [unfold printed_plainly; pose proof (DecProofs.ndigits_pos (Z.to_N (Z.abs z))); lia|].
    assert (E : Ok s = Ok (numeral (Z.ltb z 0) false ip (has_point fp) fp)) by (rewrite <- Hs; exact Ht).
    injection E as ->. apply numeral_chars, Hok.
  - cbn [dt_fmt dt_decimal mk_dtype] in Hs.
    destruct (to_string_plain udigit babel neg c e Hp) as (ip & fp & Ht & Hok & _ & _).
    assert (E : Ok s = Ok (numeral neg false ip (has_point fp) fp)) by (rewrite <- Hs; exact Ht).
    injection E as ->. apply numeral_chars, Hok.
Qed.

Section Columns.
Variables (py_str : value -> pystr) (py_repr : list (option value) -> pystr).
Let sc := value_scalars py_str py_repr.

(** single values *)
Theorem typed_cell_roundtrip babel udigit (st : @settings value) t v :
  typed_value babel udigit t v -> st_separator st = None -> st_datatype st = Some t ->
  exists s, col_write sc st (POne v) = Ok (CStr s)
    /\ (~ In s (st_null st) -> s <> [] \/ st_default st = [] -> fst (col_read sc true st s) = Ok (POne v)).
Proof.
  intros Hv Hs Ht. destruct (typed_roundtrip _ _ _ _ Hv) as (s & H1 & H2).
  destruct (scalar_roundtrip sc st t v s Hs Ht H1) as [Hw Hr]. exists s. split; [exact Hw|].
  intros Hn Hd. apply Hr. exists s. repeat split; try assumption.
  destruct s as [|x s]; [left|right; split; [discriminate|reflexivity]].
  split; [reflexivity|]. destruct Hd; congruence.
Qed.
Theorem number_cell_roundtrip babel udigit (st : @settings value) t v :
  typed_value babel udigit t v -> number_value v -> st_separator st = None -> st_datatype st = Some t ->
  (forall s, In s (st_null st) -> ~ Forall number_char s \/ s = []) ->
  exists s, col_write sc st (POne v) = Ok (CStr s) /\ fst (col_read sc true st s) = Ok (POne v).
Proof.
  intros Hv Hnum Hs Ht Hnull. destruct (typed_roundtrip _ _ _ _ Hv) as (s & H1 & H2).
  destruct (number_text _ _ _ _ _ Hv Hnum H1) as [Hne Hch].
  destruct (scalar_roundtrip sc st t v s Hs Ht H1) as [Hw Hr]. exists s. split; [exact Hw|].
  apply Hr. exists s. repeat split; try assumption; [right; auto|]. intros Hi. destruct (Hnull s Hi); contradiction.
Qed.

(** lists of numbers *)
Theorem number_list_roundtrip babel udigit (st : @settings value) t c sep vals :
  Forall (fun v => typed_value babel udigit t v /\ number_value v) vals -> st_separator st = Some (c :: sep) -> st_datatype st = Some t ->
  ~ number_char c -> (forall s, In s (st_null st) -> ~ Forall (fun x => number_char x \/ In x (c :: sep)) s \/ s = []) ->
  st_default st = [] \/ vals <> [] -> st_required st = false \/ vals <> [] ->
  exists s, col_write sc st (PList (map Some vals)) = Ok (CStr s) /\ fst (col_read sc true st s) = Ok (PList (map Some vals)).
Proof.
  intros Hv Hs Ht Hc Hnull Hd Hr.
  assert (Hss : exists ss, Forall2 (fun v s => dt_fmt t v = Ok s /\ dt_reads t s = Ok v /\ s <> [] /\ Forall number_char s) vals ss).
  { clear Hd Hr. induction Hv as [|v vals [H1 H2] Hv (ss & IH)]; [exists []; constructor|].
    destruct (typed_roundtrip _ _ _ _ H1) as (s & E1 & E2). destruct (number_text _ _ _ _ _ H1 H2 E1).
    exists (s :: ss). constructor; auto. }
  destruct Hss as (ss & Hss).
  assert (Hf : Forall2 (fun o s => fmt_one sc st o = Ok (CStr s)) (map Some vals) ss).
  { clear -Hss Ht. induction Hss as [|v s vals ss (H1 & _) Hss IH]; constructor; auto.
    cbn [fmt_one]. rewrite Ht, H1. reflexivity. }
  destruct vals as [|v0 vals0] eqn:Evals.
  - exists []. inversion Hss; subst. split; [apply write_list with (sep := c :: sep) in Hf; [exact Hf|exact Hs]|].
    destruct Hd as [Hd|Hd]; [|congruence]. destruct Hr as [Hr|Hr]; [|congruence].
    unfold col_read. cbn zeta. unfold or_default at 1 2 3. rewrite Hd, Hr, Hs. reflexivity.
  - rewrite <- Evals in *. clear Hd Hr.
    assert (Hne : ss <> []) by (intros ->; rewrite Evals in Hss; inversion Hss).
    assert (Hall : Forall (fun s => s <> [] /\ Forall number_char s) ss).
    { clear -Hss. induction Hss as [|v s vals ss (_ & _ & H) Hss IH]; constructor; auto. }
    assert (Hjc : forall l, Forall (fun s => s <> [] /\ Forall number_char s) l -> Forall (fun x => number_char x \/ In x (c :: sep)) (join (c :: sep) l)).
    { clear. induction l as [|a [|b l] IH]; intros H; [constructor| |].
      - inversion H as [|? ? [_ Ha] _]; subst. cbn [join]. eapply Forall_impl; [|exact Ha]. auto.
      - inversion H as [|? ? [_ Ha] Hl]; subst. change (join (c :: sep) (a :: b :: l)) with (a ++ (c :: sep) ++ join (c :: sep) (b :: l)).
        apply Forall_app. split; [eapply Forall_impl; [|exact Ha]; auto|].
        apply Forall_app. split; [apply Forall_forall; auto|]. apply IH, Hl. }
    assert (Hj : join (c :: sep) ss <> []).
    { intros E. apply join_nil_iff in E; [|discriminate]. destruct E as [E|E]; [congruence|].
      rewrite E in Hall. inversion Hall as [|? ? [H _] _]; congruence. }
    destruct (list_roundtrip sc st c sep (map Some vals) ss Hs) as [Hw Hread]; try assumption.
    + rewrite Evals. discriminate.
    + intros s Hin Hc'. rewrite Forall_forall in Hall. destruct (Hall s Hin) as [_ H].
      apply Hc. rewrite Forall_forall in H. apply H, Hc'.
    + intros Hi. destruct (Hnull _ Hi) as [H|H]; [apply H, Hjc, Hall|contradiction].
    + eexists. split; [exact Hw|]. apply Hread. clear -Hss Ht Hnull.
      induction Hss as [|v s vals ss (H1 & H2 & H3 & H4) Hss IH]; constructor; auto.
      exists s. split; [right; auto|]. eapply vr_parsed; eauto. intros Hi. destruct (Hnull _ Hi) as [H|H]; [|contradiction].
      apply H. eapply Forall_impl; [|exact H4]. auto.
Qed.
End Columns.
