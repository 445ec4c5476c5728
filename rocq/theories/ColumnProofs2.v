(** Column.write followed by Column.read (C25); inheritance (C26); NaturalLanguage (C36). *)
From Verif Require Import PyStr Dsv DsvSpec Json NatLang Column ColumnSpec ColumnProofs NamesProofs.
From Coq Require Import Lia.

Lemma Forall2_impl {A B} (R S : A -> B -> Prop) l m : (forall a b, R a b -> S a b) -> Forall2 R l m -> Forall2 S l m.
Proof. intros H. induction 1; constructor; auto. Qed.

Section RoundTrip.
Context {V : Type} (sc : scalars V).
Implicit Types st : @settings V.

Lemma required_never_none strict st text w : st_required st = true -> col_read sc strict st text <> (Ok PNone, w).
Proof.
  intros Hr. unfold col_read. cbn zeta. rewrite Hr. cbn [andb].
  destruct (str_mem (or_default st text) (st_null st)) eqn:E; [discriminate|].
  destruct (st_separator st) as [sep|].
  - destruct (or_default st text); [discriminate|].
    destruct (mapM _ _) as [?|[]]; try discriminate. destruct strict; discriminate.
  - unfold nulled. rewrite E. cbn [read_elem]. destruct (st_datatype st) as [t|]; cbn; [|discriminate].
    destruct (dt_reads t _); discriminate.
Qed.

(** strict and non-strict reading differ only for list-valued cells with invalid elements and in warnings *)
Lemma nonstrict_read st text : st_separator st = None ->
  fst (col_read sc false st text) = fst (col_read sc true st text).
Proof. intros H. unfold col_read. cbn zeta. rewrite H. destruct (_ && _); reflexivity. Qed.

(** *** scalars *)
Lemma scalar_roundtrip st t v s : st_separator st = None -> st_datatype st = Some t ->
  dt_fmt t v = Ok s ->
  col_write sc st (POne v) = Ok (CStr s)
  /\ (fst (col_read sc true st s) = Ok (POne v)
      <-> exists s', with_default st s s' /\ ~ In s' (st_null st) /\ dt_reads t s' = Ok v).
Proof.
  intros Hs Ht Hf. unfold col_write. rewrite Hs. cbn [fmt_one]. rewrite Ht, Hf. split; [reflexivity|].
  rewrite col_read_spec by (rewrite Hs; discriminate). split.
  - intros H. remember (Ok (POne v)) as r eqn:Er. destruct H as [s0 Hd Hq Hi|s0 r Hd Hn Hx Hw|Hd Hn Hx|s0 Hd Hq Hx Hne Hi|s0 sep' ps ps' vals' Hd E1 Hne Hn Hp H1 H2|s0 sep' ps ps' g vals' b rest e' Hd E1 Hne Hn Hp H1 E2 H2 H3]; try discriminate.
    exists s0. split; [exact Hd|].
    destruct Hw as [s1 Hi|s1 Hi Ht'|s1 t' v' Hi Ht' Hv|s1 t' e Hi Ht' Hv]; try discriminate; try congruence.
    injection Er as ->. split; [exact Hi|]. congruence.
  - intros (s' & Hd & Hi & Hv).
    apply (cr_scalar sc st s s' (Ok (Some v))); [exact Hd|tauto|exact Hs|]. eapply vr_parsed; eassumption.
Qed.

Lemma string_roundtrip st s : (forall a b, s_str sc a = s_str sc b -> a = b) -> (forall a, s_cell sc (s_str sc a) = CStr a) ->
  st_separator st = None -> st_datatype st = None ->
  col_write sc st (POne (s_str sc s)) = Ok (CStr s)
  /\ (fst (col_read sc true st s) = Ok (POne (s_str sc s))
      <-> ~ In s (st_null st) /\ (s = [] -> st_default st = [])).
Proof.
  intros Hinj Hc Hs Ht. unfold col_write. rewrite Hs. cbn [fmt_one]. rewrite Ht, Hc. split; [reflexivity|].
  rewrite col_read_spec by (rewrite Hs; discriminate). split.
  - intros H. remember (Ok (POne (s_str sc s))) as r eqn:Er. destruct H as [s0 Hd Hq Hi|s0 r Hd Hn Hx Hw|Hd Hn Hx|s0 Hd Hq Hx Hne Hi|s0 sep' ps ps' vals' Hd E1 Hne Hn Hp H1 H2|s0 sep' ps ps' g vals' b rest e' Hd E1 Hne Hn Hp H1 E2 H2 H3]; try discriminate.
    destruct Hw as [s1 Hi|s1 Hi Ht'|s1 t' v' Hi Ht' Hv|s1 t' e Hi Ht' Hv]; try discriminate; try congruence.
    injection Er as Er. apply Hinj in Er. subst s1. split; [exact Hi|].
    intros ->. destruct Hd as [[_ Hd]|[Hd _]]; congruence.
  - intros [Hi Hd].
    apply (cr_scalar sc st s s (Ok (Some (s_str sc s)))); [|tauto|exact Hs|apply vr_string; assumption].
    destruct s; [left; split; [reflexivity|symmetry; auto]|right; split; [discriminate|reflexivity]].
Qed.

(** None is written as the first null value *)
Lemma none_roundtrip st n more : st_separator st = None -> st_null st = n :: more ->
  col_write sc st PNone = Ok (CStr n)
  /\ (fst (col_read sc true st n) = Ok PNone
      <-> st_required st = false /\ (n = [] -> In (st_default st) (st_null st))).
Proof.
  intros Hs Hn. unfold col_write, fmt_none. rewrite Hs, Hn. split; [reflexivity|].
  rewrite col_read_spec by (rewrite Hs; discriminate). split.
  - intros H. remember (Ok PNone) as r eqn:Er. destruct H as [s0 Hd Hq Hi|s0 r Hd Hn' Hx Hw|Hd Hn' Hx|s0 Hd Hq Hx Hne Hi|s0 sep' ps ps' vals' Hd E1 Hne Hn' Hp H1 H2|s0 sep' ps ps' g vals' b rest e' Hd E1 Hne Hn' Hp H1 E2 H2 H3]; try discriminate; try (rewrite Hs in Hx; congruence).
    destruct Hw as [s1 Hi|s1 Hi Ht'|s1 t' v' Hi Ht' Hv|s1 t' e Hi Ht' Hv]; try discriminate; try congruence.
    split; [destruct (st_required st); [exfalso; tauto|reflexivity]|].
    intros ->. destruct Hd as [[_ ->]|[Hd _]]; [|congruence]. rewrite <- Hn. exact Hi.
  - intros [Hr Hd].
    assert (Hx : exists s, with_default st n s /\ In s (st_null st)).
    { destruct n as [|x n]; [exists (st_default st)|exists (x :: n)].
      - split; [left; auto|]. rewrite Hn. auto.
      - split; [right; split; [discriminate|reflexivity]|]. rewrite Hn. left; reflexivity. }
    destruct Hx as (s & Hw & Hi).
    apply (cr_scalar sc st n s (Ok None)); [exact Hw|rewrite Hr; intros [? _]; discriminate|exact Hs|constructor; exact Hi].
Qed.

(** *** lists *)
Lemma parts_join sep c (ss : list pystr) : ss <> [] -> (forall s, In s ss -> ~ In c s) -> split (c :: sep) (join (c :: sep) ss) = ss.
Proof.
  unfold split. intros Hne Hc. induction ss as [|p [|q ps] IH]; [congruence| |].
  - cbn [join]. rewrite <- (app_nil_r p) at 1. rewrite split_aux_pass; [reflexivity|].
    intros a1 a2 -> Hn. rewrite app_nil_r. destruct a2 as [|x a2]; [congruence|]. cbn [startswith].
    destruct (N.eqb_spec c x) as [->|]; [|reflexivity]. exfalso. apply (Hc (a1 ++ x :: a2)); [left; reflexivity|].
    apply in_or_app; right; left; reflexivity.
  - change (join (c :: sep) (p :: q :: ps)) with (p ++ (c :: sep) ++ join (c :: sep) (q :: ps)).
    rewrite split_aux_pass.
    + cbn [app]. change (c :: sep ++ ?x) with ((c :: sep) ++ x). rewrite split_aux_sep by discriminate.
      f_equal. apply IH; [discriminate|]. intros s Hs. apply Hc; right; exact Hs.
    + intros a1 a2 -> Hn. destruct a2 as [|x a2]; [congruence|]. cbn [startswith app].
      destruct (N.eqb_spec c x) as [->|]; [|reflexivity]. exfalso. apply (Hc (a1 ++ x :: a2)); [left; reflexivity|].
      apply in_or_app; right; left; reflexivity.
Qed.

Lemma write_list st sep vals ss : st_separator st = Some sep ->
  Forall2 (fun o s => fmt_one sc st o = Ok (CStr s)) vals ss ->
  col_write sc st (PList vals) = Ok (CStr (join sep ss)).
Proof.
  intros Hs H. unfold col_write. rewrite Hs. cbn [bind].
  assert (H1 : mapM (fmt_one sc st) vals = Ok (map CStr ss)).
  { apply mapM_Ok_iff. induction H; cbn; constructor; assumption. }
  rewrite H1. cbn [bind]. rewrite mapM_map.
  assert (H2 : mapM (fun s => join_item (CStr s)) ss = Ok ss).
  { apply mapM_Ok_iff. clear. induction ss; constructor; auto. }
  rewrite H2. reflexivity.
Qed.

Lemma list_roundtrip st c sep vals ss : st_separator st = Some (c :: sep) -> vals <> [] ->
  Forall2 (fun o s => fmt_one sc st o = Ok (CStr s)) vals ss ->
  (forall s, In s ss -> ~ In c s) ->
  let text := join (c :: sep) ss in
  text <> [] -> ~ In text (st_null st) ->
  col_write sc st (PList vals) = Ok (CStr text)
  /\ (fst (col_read sc true st text) = Ok (PList vals)
      <-> Forall2 (fun s v => exists s', with_default st s s' /\ value_reads sc st s' (Ok v)) ss vals).
Proof.
  intros Hs Hne Hf Hc text Ht Hn. split; [apply write_list; assumption|].
  assert (Hss : ss <> []) by (intros ->; inversion Hf; subst; congruence).
  assert (Hsp : split (c :: sep) text = ss) by (apply parts_join; assumption).
  assert (Hwd : with_default st text text) by (right; split; [exact Ht|reflexivity]).
  rewrite col_read_spec by (rewrite Hs; discriminate). split.
  - intros H. remember (Ok (PList vals)) as r eqn:Er. destruct H as [s0 Hd Hq Hi|s0 r Hd Hn' Hx Hw|Hd Hn' Hx|s0 Hd Hq Hx Hne' Hi|s0 sep' ps ps' vals' Hd E1 Hne' Hn' Hp H1 H2|s0 sep' ps ps' g vals' b rest e' Hd E1 Hne' Hn' Hp H1 E2 H2 H3]; try discriminate; try congruence.
    injection Er as ->. destruct Hd as [[Hd _]|[_ ->]]; [congruence|].
    assert (sep' = c :: sep) as -> by congruence. apply parts_split in Hp; [|discriminate].
    assert (ss = ps) as <- by congruence. clear -H1 H2. revert vals H2. induction H1; intros vals H2; inversion H2; subst; constructor; eauto.
  - intros H.
    assert (Hx : exists ps', Forall2 (with_default st) ss ps' /\ Forall2 (fun p v => value_reads sc st p (Ok v)) ps' vals).
    { clear -H. induction H as [|s v ss vals (s' & H1 & H2) H (ps' & IH1 & IH2)].
      - exists []. split; constructor.
      - exists (s' :: ps'). split; constructor; assumption. }
    destruct Hx as (ps' & H1 & H2).
    eapply cr_list; try eassumption. rewrite <- Hsp. apply split_parts. discriminate.
Qed.

Lemma join_nil_iff sep (ss : list pystr) : sep <> [] -> join sep ss = [] <-> ss = [] \/ ss = [[]].
Proof.
  intros Hs. destruct ss as [|a [|b ss]]; cbn.
  - tauto.
  - split; [intros ->; right; reflexivity|intros [H|H]; congruence].
  - split.
    + intros H. destruct a; [|discriminate]. destruct sep; [congruence|discriminate].
    + intros [H|H]; discriminate.
Qed.
Lemma string_list_roundtrip st c (vals : list (option pystr)) :
  (forall a b, s_str sc a = s_str sc b -> a = b) -> (forall a, s_cell sc (s_str sc a) = CStr a) ->
  plain_list st c ->
  exists text, col_write sc st (PList (map (option_map (s_str sc)) vals)) = Ok (CStr text)
  /\ (fst (col_read sc true st text) = Ok (PList (map (option_map (s_str sc)) vals))
      <-> vals <> [None] /\ forall s, In (Some s) vals -> s <> [] /\ ~ In c s).
Proof.
  intros Hinj Hcell (Hs & Ht & Hd & Hn & Hr).
  set (ss := map (fun o => match o with Some s => s | None => [] end) vals).
  assert (Hf : Forall2 (fun o s => fmt_one sc st o = Ok (CStr s)) (map (option_map (s_str sc)) vals) ss).
  { unfold ss. clear -Hcell Ht Hn. induction vals as [|[s|] vals IH]; cbn; constructor; auto; cbn.
    - rewrite Ht, Hcell. reflexivity.
    - unfold fmt_none. rewrite Hn. reflexivity. }
  exists (join [c] ss). split; [apply write_list; assumption|].
  destruct (join [c] ss) as [|x text] eqn:Ej.
  - assert (Hread : fst (col_read sc true st []) = Ok (PList [])).
    { unfold col_read. cbn zeta. unfold or_default at 1 2 3. rewrite Hr, Hs, Hd. reflexivity. }
    rewrite Hread. apply join_nil_iff in Ej; [|discriminate]. destruct Ej as [Ej|Ej]; unfold ss in Ej.
    + apply map_eq_nil in Ej. subst vals. cbn. split; [intros _; split; [discriminate|intros ? []]|reflexivity].
    + destruct vals as [|o [|o' vals]]; try discriminate. cbn. destruct o as [s|].
      * cbn in Ej. injection Ej as ->. split; [discriminate|]. intros [_ H]. destruct (H []) as [H1 _]; [left; reflexivity|congruence].
      * split; [discriminate|]. intros [H _]. congruence.
  - rewrite <- Ej.
    assert (Hvr : forall s v, value_reads sc st s (Ok v) <-> v = match s with [] => None | _ => Some (s_str sc s) end).
    { intros s v. rewrite value_reads_iff, Ht. unfold nulled. rewrite Hn. destruct s; cbn; split; congruence. }
    assert (Hwd : forall s s', with_default st s s' <-> s' = s).
    { intros s s'. rewrite with_default_iff. unfold or_default. rewrite Hd. destruct s; split; congruence. }
    assert (Hnone : vals <> [None]) by (intros ->; discriminate).
    assert (Hjn : join [c] ss <> [] /\ ~ In (join [c] ss) (st_null st)).
    { rewrite Ej, Hn. split; [discriminate|]. intros [H|[]]; discriminate. }
    destruct Hjn as [Hj1 Hj2].
    rewrite col_read_spec by (rewrite Hs; discriminate).
    assert (Hspl : cell_reads sc st (join [c] ss) (Ok (PList (map (option_map (s_str sc)) vals)))
                   <-> Forall2 (fun s v => v = match s with [] => None | _ => Some (s_str sc s) end) (split [c] (join [c] ss)) (map (option_map (s_str sc)) vals)).
    { rewrite <- col_read_spec by (rewrite Hs; discriminate). unfold col_read. cbn zeta.
      assert (Ho : or_default st (join [c] ss) = join [c] ss) by (apply with_default_iff, Hwd; reflexivity).
      rewrite Ho, Hr, Hs, Ht. cbn [andb].
      replace (str_mem (join [c] ss) (st_null st)) with false by (symmetry; apply str_mem_false; exact Hj2).
      rewrite Ej at 1. rewrite Ej at 1. rewrite <- Ej.
      rewrite mapM_map.
      assert (Hm : forall l, mapM (fun x => read_elem sc None (nulled st (or_default st x))) l
                   = Ok (map (fun s => match s with [] => None | _ => Some (s_str sc s) end) l)).
      { induction l as [|s l IH]; [reflexivity|]. cbn [mapM]. unfold or_default at 1, nulled at 1. rewrite Hn, Hd.
        destruct s; cbn [str_mem existsb str_eqb read_elem orb bind]; rewrite IH; reflexivity. }
      rewrite Hm. cbn [fst]. split.
      - intros E. assert (E' : map (fun s => match s with [] => None | _ => Some (s_str sc s) end) (split [c] (join [c] ss)) = map (option_map (s_str sc)) vals) by congruence.
        apply Forall2_map_eq in E'. eapply Forall2_impl; [|exact E']. cbn; congruence.
      - intros E. do 2 f_equal. apply Forall2_map_eq. eapply Forall2_impl; [|exact E]. cbn; congruence. }
    rewrite Hspl. split.
    + intros H. split; [exact Hnone|]. intros s Hin.
      assert (Hall : forall o, In o (map (option_map (s_str sc)) vals) -> exists p, In p (split [c] (join [c] ss)) /\ o = match p with [] => None | _ => Some (s_str sc p) end).
      { clear -H. induction H; cbn; [tauto|]. intros o [<-|Ho]; [exists x; auto|]. destruct (IHForall2 o Ho) as (p & Hp & E). eauto. }
      destruct (Hall (Some (s_str sc s))) as (p & Hp & E).
      { apply in_map_iff. exists (Some s). auto. }
      destruct p as [|y p]; [discriminate|]. injection E as E. apply Hinj in E. subst s. split; [discriminate|].
      exact (proj1 (Forall_forall _ _) (split1_nosep c (join [c] ss)) _ Hp).
    + intros [_ H]. rewrite (split_join1 c ss).
      * unfold ss. clear -H. induction vals as [|o vals IH]; cbn; constructor.
        -- destruct o as [s|]; cbn; [|reflexivity]. destruct (H s) as [H1 _]; [left; reflexivity|]. destruct s; [congruence|reflexivity].
        -- apply IH. intros s Hs. apply H. right; exact Hs.
      * intros E. rewrite E in Ej. discriminate.
      * intros p Hp. unfold ss in Hp. apply in_map_iff in Hp. destruct Hp as ([s|] & <- & Hin); [apply H, Hin|intros []].
Qed.
End RoundTrip.
