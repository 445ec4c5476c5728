(** Proofs for C51. *)
From Verif Require Import PyStr PyCsv Dsv DsvProofs4 Json Dec DecProofs NatLang Column Schema Table Jsonld JsonldSpec JsonldProofs TripleProofs DbProofs DbReadProofs3 FrictionlessProofs2 Csv2json Csv2jsonSpec Props_Jsonld.

Lemma one_alone {A} (v : tree A) : one_list [v] = [v].
Proof. destruct v as [x|l]; cbn [one_list items_in flat_map filter]; [reflexivity|]. rewrite app_nil_r. reflexivity. Qed.
Lemma given_one {A} (o : list (pystr * tree A)) k v : NoDup (map fst o) -> In (k, v) o ->
  given k (map (fun kv => {| t_about := None; t_prop := fst kv; t_val := snd kv |}) o) = [v].
Proof.
  intros N I. induction o as [|[k0 v0] o IH]; [destruct I|]. cbn [map fst] in N. apply NoDup_cons_iff in N. destruct N as [N1 N2]. cbn [map]. rewrite given_cons. cbn [t_prop t_val fst snd]. destruct I as [I|I].
  - injection I as -> ->. rewrite str_eqb_refl. cbn [app]. f_equal. clear -N1. induction o as [|[k1 v1] o IH]; [reflexivity|]. cbn [map]. rewrite given_cons. cbn [t_prop fst snd]. destruct (str_eqb k1 k) eqn:E.
    + apply str_eqb_eq in E. subst k1. exfalso. apply N1. left. reflexivity.
    + apply IH. intros X. apply N1. right. exact X.
  - destruct (str_eqb k0 k) eqn:E; [|apply IH; assumption]. apply str_eqb_eq in E. subst k0. exfalso. apply N1. apply (in_map fst) in I. exact I.
Qed.
Lemma firsts_id l : NoDup l -> firsts l = l.
Proof. induction 1 as [|x l N1 N2 IH]; [reflexivity|]. cbn [firsts]. rewrite IH, filter_negb_id by exact N1. reflexivity. Qed.
Lemma assoc_same {A} (a b : list (pystr * A)) : NoDup (map fst a) -> map fst b = map fst a -> (forall k v, In (k, v) a -> dget str_eqb b k = Some v) -> b = a.
Proof.
  revert b. induction a as [|[k v] a IH]; intros b N K G; [destruct b; [reflexivity|discriminate K]|]. destruct b as [|[k' v'] b]; [discriminate K|]. cbn [map fst] in K. injection K as -> K.
  pose proof (G k v (or_introl eq_refl)) as E. cbn [dget] in E. rewrite str_eqb_refl in E. injection E as ->. f_equal. cbn [map fst] in N. apply NoDup_cons_iff in N. destruct N as [N1 N2]. apply IH; [exact N2|exact K|].
  intros k1 v1 I. specialize (G k1 v1 (or_intror I)). cbn [dget] in G. destruct (str_eqb k1 k) eqn:E; [|exact G]. apply str_eqb_eq in E. subst k1. exfalso. apply N1. apply (in_map fst) in I. exact I.
Qed.
Lemma group_distinct {A} graph as_str (o : list (pystr * tree A)) : NoDup (map fst o) ->
  group_triples graph as_str (map (fun kv => {| t_about := None; t_prop := fst kv; t_val := snd kv |}) o) = Ok [map (fun kv => (fst kv, Raw (snd kv))) o].
Proof.
  intros N. destruct (c45_row graph as_str (map (fun kv => {| t_about := None; t_prop := fst kv; t_val := snd kv |}) o)) as (o' & E & R).
  { intros x I. apply in_map_iff in I. destruct I as (kv & <- & _). reflexivity. }
  rewrite E. enough (X : o' = o) by (rewrite X; reflexivity). destruct R as [R1 R2 R3]. assert (Em : map t_prop (map (fun kv => {| t_about := None; t_prop := fst kv; t_val := snd kv |}) o) = map fst o) by (rewrite map_map; apply map_ext; reflexivity). rewrite Em, (firsts_id (map fst o) N) in R1. apply assoc_same; [exact N|exact R1|].
  intros k v I. pose proof (given_one o k v N I) as G. destruct (str_eqb k (lit "@id")) eqn:Ek.
  - apply str_eqb_eq in Ek. subst k. rewrite R3, G, one_alone. reflexivity.
  - rewrite R2 by (apply str_eqb_neq, Ek). rewrite G. unfold combined. rewrite one_alone. destruct v; reflexivity.
Qed.

Section Proofs.
Context {V : Type} (sc : scalars V) (F : json_fns V).
Implicit Types (t : jtable V) (c : jcol V) (v : pyval V) (row : dict V).
Definition distinct_headers t : Prop := NoDup (map (fun c => tc_header (jc_col c)) (jt_cols t)).
Lemma col_of_spec t k : distinct_headers t -> exists co, col_of (jcols t) k = option_map (resolve_col t) co /\ column_of t k co.
Proof.
  intros N. unfold col_of. rewrite (dset_all_new str_eqb str_eqb_eq).
  2: { cbn [map app]. rewrite map_map. unfold jcols. rewrite map_map. exact N. }
  cbn [app]. unfold jcols. rewrite map_map. cbn [jc_col resolve_col tc_header]. unfold distinct_headers in N. unfold column_of. clear N.
  induction (jt_cols t) as [|c l IH]; [exists None; split; [reflexivity|intros c []]|]. cbn [map dget]. destruct (str_eqb k (tc_header (jc_col c))) eqn:E.
  - apply str_eqb_eq in E. subst k. exists (Some c). split; [reflexivity|]. split; [left; reflexivity|reflexivity].
  - destruct IH as (co & E1 & E2). exists co. split; [exact E1|]. destruct co as [c1|].
    + destruct E2 as [E2 E3]. split; [right; exact E2|exact E3].
    + intros c1 [<-|I]; [|apply E2, I]. intros X. symmetry in X. apply str_eqb_eq in X. congruence.
Qed.
Lemma is_null_iff nulls v : is_null F nulls v = true <-> null_value F nulls v.
Proof.
  unfold null_value. destruct v as [|x|l]; cbn [is_null].
  - split; [left; reflexivity|reflexivity].
  - rewrite Bool.orb_true_iff, existsb_exists. split.
    + intros [(n & I & E)|E]; right; exists x; (split; [reflexivity|]); [right; exists n; auto|left; exact E].
    + intros [X|(y & X & [E|(n & I & E)])]; [discriminate X| |]; injection X as <-; [right; exact E|left; exists n; auto].
  - split; [discriminate|]. intros [X|(y & X & _)]; discriminate X.
Qed.
Lemma left_out_iff t co v : left_out F t (option_map (resolve_col t) co) v = true <-> hidden F t co v.
Proof.
  destruct co as [c|]; cbn [option_map left_out hidden]; [|apply is_null_iff]. rewrite !Bool.orb_true_iff, is_null_iff. cbn [resolve_col jc_suppress jc_col tc_st tc_col c_desc resolve_desc de_separator]. unfold tc_virtual. cbn [tc_col c_virtual].
  assert (E : match nonempty_opt (de_separator (c_desc (tc_col (jc_col c)))), v with Some _, PList [] => true | _, _ => false end = true <-> v = PList [] /\ exists x s, de_separator (jdesc c) = Some (x :: s)).
  { unfold jdesc. destruct (de_separator (c_desc (tc_col (jc_col c)))) as [[|x s]|]; cbn [nonempty_opt].
    - split; [discriminate|]. intros (_ & x & s & X). discriminate X.
    - split; [|intros (-> & _); reflexivity]. destruct v as [| |[|]]; try discriminate. intros _. split; [reflexivity|]. exists x, s. reflexivity.
    - split; [discriminate|]. intros (_ & x & s & X). discriminate X. }
  rewrite E. tauto.
Qed.
Lemma format_iff co v w : format_value F co v = Ok w <-> formatted F co v w.
Proof.
  split.
  - destruct v as [|x|l]; cbn [format_value]; intros H.
    + apply Ok_inj in H. subst w. constructor.
    + apply bind_inv in H. destruct H as (y & E & H). apply Ok_inj in H. subst w. constructor. exact E.
    + apply Ok_inj in H. subst w. constructor.
  - intros H. destruct H as [|x y E|l]; cbn [format_value]; [reflexivity| |reflexivity]. unfold jdesc in E. rewrite E. reflexivity.
Qed.
Lemma format_resolved t co v : format_value F (option_map (resolve_col t) co) v = format_value F co v.
Proof. destruct co as [c|], v as [|x|l]; reflexivity. Qed.
Lemma from_col_ok t co row n name v x : from_col sc F t (option_map (resolve_col t) co) row name v n = Ok x -> cell_triple sc F t co row n name v x.
Proof.
  unfold from_col. intros H. apply bind_inv in H. destruct H as (p & H1 & H). apply bind_inv in H. destruct H as (v' & H2 & H). apply bind_inv in H. destruct H as (w & H3 & H). apply bind_inv in H. destruct H as (s & H4 & H).
  apply Ok_inj in H. subst x. rewrite format_resolved in H3. apply format_iff in H3. constructor; cbn [t_prop t_val t_about].
  - destruct co as [c|]; cbn -[inherit] in H1; unfold url_of, jdesc, header_of; cbn [option_map]; [destruct (inherit de_propertyUrl _ _)|destruct (inherit de_propertyUrl _ _)]; try exact H1; apply Ok_inj in H1; congruence.
  - destruct co as [c|]; cbn -[inherit] in H2; unfold url_of, jdesc, header_of; cbn [option_map]; (destruct (inherit de_valueUrl _ _); [apply bind_inv in H2; destruct H2 as (s' & E & H2); apply Ok_inj in H2; subst v'; exists s'; split; [exact E|exact H3]|apply Ok_inj in H2; subst v'; exact H3]).
  - destruct co as [c|]; cbn -[inherit] in H4; [|apply Ok_inj in H4; congruence]. unfold jdesc. destruct (de_aboutUrl (c_desc (tc_col (jc_col c)))); [|apply Ok_inj in H4; congruence].
    apply bind_inv in H4. destruct H4 as (s' & E & H4). apply Ok_inj in H4. subst s. exists s'. split; [exact E|]. destruct s'; reflexivity.
Qed.
Lemma virtual_resolved t : filter (fun c => tc_virtual (jc_col c)) (jcols t) = map (resolve_col t) (virtual_columns t).
Proof. unfold jcols, virtual_columns. induction (jt_cols t) as [|c l IH]; [reflexivity|]. cbn [map filter]. rewrite IH. unfold tc_virtual at 1. cbn [resolve_col jc_col tc_col c_virtual]. destruct (c_virtual (tc_col (jc_col c))); reflexivity. Qed.
Lemma cells_ok nometa t row n : distinct_headers t -> forall l i cells, mapM (cell_triples sc F nometa t row n) (combine (seq i (length l)) l) = Ok cells -> cells_described sc F nometa t row n i l (concat cells).
Proof.
  intros N. induction l as [|[k v] l IH]; intros i cells H; cbn [length seq combine] in H; [apply Ok_inj in H; subst cells; constructor|].
  cbn [mapM] in H. apply bind_inv in H. destruct H as (xs & H1 & H). apply bind_inv in H. destruct H as (rest & H2 & H). apply Ok_inj in H. subst cells. apply IH in H2. cbn [concat].
  unfold cell_triples in H1. cbn [fst snd] in H1. destruct (col_of_spec t k N) as (co & E & C). rewrite E in H1. destruct (left_out F t (option_map (resolve_col t) co) v) eqn:L.
  - apply left_out_iff in L. apply Ok_inj in H1. subst xs. cbn [app]. apply cd_hidden with co; assumption.
  - apply bind_inv in H1. destruct H1 as (x & H1 & H3). apply Ok_inj in H3. subst xs. cbn [app]. apply from_col_ok in H1. apply cd_shown with co; [exact C| | |exact H2].
    + intros X. apply left_out_iff in X. congruence.
    + exact H1.
Qed.
Lemma triples_ok nometa t row n ts : distinct_headers t -> row_triples sc F nometa t row n = Ok ts -> row_described sc F nometa t row n ts.
Proof.
  intros N H. unfold row_triples in H. apply bind_inv in H. destruct H as (ids & H1 & H). apply bind_inv in H. destruct H as (cells & H2 & H). apply bind_inv in H. destruct H as (virt & H3 & H). apply Ok_inj in H. subst ts.
  constructor. exists ids, (concat cells), virt. split; [reflexivity|]. split; [|split].
  - destruct (inherit de_aboutUrl _ _); [|apply Ok_inj in H1; congruence]. apply bind_inv in H1. destruct H1 as (s & E & H1). apply Ok_inj in H1. exists s. split; [exact E|congruence].
  - apply cells_ok; assumption.
  - rewrite virtual_resolved in H3. rewrite mapM_map in H3. apply mapM_Forall2 in H3. eapply Forall2_weaken; [|exact H3]. intros c x _ E. apply (from_col_ok t (Some c)) in E. exact E.
Qed.
(** *** Plain tables *)
Lemma plain_inherit get (l : list (desc V)) d : get d = None -> Forall (fun d => get d = None) l -> @inherit V pystr get d l = None.
Proof. intros E H. revert d E. induction H as [|p l Ep H IH]; intros d E; cbn [inherit]; rewrite E; [reflexivity|apply IH, Ep]. Qed.
Lemma plain_col t : plain t -> forall get, get = de_propertyUrl \/ get = de_valueUrl -> forall co k, column_of t k co -> url_of get t co = None.
Proof.
  intros [(S1 & S2 & S3) P C] get G co k Hc. inversion P as [|x l (P1 & P2 & P3) Po E]; subst. assert (Po' : Forall (fun d => get d = None) (jt_outer t)).
  { eapply Forall_impl; [|exact Po]. intros d (_ & D2 & D3). destruct G as [->| ->]; assumption. }
  destruct co as [c|]; cbn [url_of].
  - destruct Hc as [I _]. rewrite Forall_forall in C. destruct (C c I) as (_ & C2 & C3 & _). apply plain_inherit; [destruct G as [->| ->]; assumption|]. constructor; [destruct G as [->| ->]; assumption|]. constructor; [destruct G as [->| ->]; assumption|exact Po'].
  - apply plain_inherit; [destruct G as [->| ->]; assumption|exact Po'].
Qed.
Lemma plain_virtual t : plain t -> virtual_columns t = [].
Proof.
  intros [_ _ C]. unfold virtual_columns. induction C as [|c l (_ & _ & _ & Cv) C IH]; [reflexivity|]. cbn [filter]. rewrite Cv. exact IH.
Qed.
Definition own_triple (kv : pystr * tree (option V)) : triple (option V) := {| t_about := None; t_prop := fst kv; t_val := snd kv |}.
Lemma plain_triple t co k : plain t -> column_of t k co -> forall row n name v x, cell_triple sc F t co row n name v x -> t_about x = None /\ t_prop x = name /\ formatted F co v (t_val x).
Proof.
  intros P Hc row n name v x [X1 X2 X3]. rewrite (plain_col t P de_propertyUrl (or_introl eq_refl) co k Hc) in X1. rewrite (plain_col t P de_valueUrl (or_intror eq_refl) co k Hc) in X2. split; [|split; [exact X1|exact X2]].
  destruct co as [c|]; [|exact X3]. destruct P as [_ _ C]. rewrite Forall_forall in C. destruct Hc as [I _]. destruct (C c I) as (C1 & _). rewrite C1 in X3. exact X3.
Qed.
Lemma shown_of_described nometa t row n : plain t -> forall l i ts, cells_described sc F nometa t row n i l ts -> exists o, shown F nometa t i l o /\ ts = map own_triple o.
Proof.
  intros P l i ts H. induction H as [i|i k v co l ts Hc Hh H IH|i k v co l x ts Hc Hh Hx H IH].
  - exists []. split; [constructor|reflexivity].
  - destruct IH as (o & S & ->). exists o. split; [|reflexivity]. apply sh_hidden with co; assumption.
  - destruct IH as (o & S & ->). destruct (plain_triple t co k P Hc _ _ _ _ _ Hx) as (E1 & E2 & E3). exists ((cell_name nometa t i k, t_val x) :: o). split; [apply sh_shown with co; assumption|].
    cbn [map]. f_equal. destruct x as [a p w]. cbn [t_about t_prop t_val] in *. subst a p. reflexivity.
Qed.
Lemma from_plain t co k : plain t -> column_of t k co -> forall row n name v w, formatted F co v w -> from_col sc F t (option_map (resolve_col t) co) row name v n = Ok (own_triple (name, w)).
Proof.
  intros P Hc row n name v w Hw. pose proof (plain_col t P de_propertyUrl (or_introl eq_refl) co k Hc) as U1. pose proof (plain_col t P de_valueUrl (or_intror eq_refl) co k Hc) as U2. unfold from_col. apply format_iff in Hw. rewrite format_resolved, Hw || idtac.
  destruct co as [c|]; cbn [option_map url_of resolve_col jc_col tc_col c_desc resolve_desc de_propertyUrl de_valueUrl de_aboutUrl] in *; unfold parents, jdesc in *; rewrite U1; cbn [bind]; rewrite U2; cbn [bind].
  - rewrite (format_resolved t (Some c) v : format_value F (Some _) v = _), Hw. cbn [bind]. destruct P as [_ _ C]. rewrite Forall_forall in C. destruct Hc as [I _]. destruct (C c I) as (C1 & _). unfold jdesc in C1. rewrite C1. reflexivity.
  - rewrite Hw. reflexivity.
Qed.
Lemma column_unique t k co co' : distinct_headers t -> column_of t k co -> column_of t k co' -> co' = co.
Proof.
  intros N H H'. destruct co as [c|], co' as [c'|]; cbn [column_of] in *; [|destruct H as [I E]; contradiction (H' c I E)|destruct H' as [I E]; contradiction (H c' I E)|reflexivity].
  destruct H as [I E], H' as [I' E']. f_equal. unfold distinct_headers in N. revert N I I'. generalize (jt_cols t). intros l N I I'. apply (nodup_map_inj (fun c => tc_header (jc_col c)) l); [exact N|exact I'|exact I|congruence].
Qed.
Lemma cells_plain nometa t row n : plain t -> distinct_headers t -> forall l i o, shown F nometa t i l o ->
  exists cells, mapM (cell_triples sc F nometa t row n) (combine (seq i (length l)) l) = Ok cells /\ concat cells = map own_triple o.
Proof.
  intros P N l i o H. induction H as [i|i k v co l o Hc Hh H IH|i k v co w l o Hc Hh Hw H IH].
  - exists []. split; reflexivity.
  - destruct IH as (cells & E1 & E2). exists ([] :: cells). split; [|exact E2]. cbn [length seq combine mapM]. rewrite E1. unfold cell_triples at 1. cbn [fst snd].
    destruct (col_of_spec t k N) as (co' & E & C'). rewrite E. assert (X : co' = co) by (eapply column_unique; eassumption). subst co'. apply left_out_iff in Hh. rewrite Hh. reflexivity.
  - destruct IH as (cells & E1 & E2). exists ([own_triple (cell_name nometa t i k, w)] :: cells). split; [|cbn [concat app map]; rewrite E2; reflexivity]. cbn [length seq combine mapM]. rewrite E1. unfold cell_triples at 1. cbn [fst snd].
    destruct (col_of_spec t k N) as (co' & E & C'). rewrite E. assert (X : co' = co) by (eapply column_unique; eassumption). subst co'.
    destruct (left_out F t (option_map (resolve_col t) co) v) eqn:L; [apply left_out_iff in L; contradiction|]. pose proof (from_plain t co k P Hc row n (cell_name nometa t i k) v w Hw) as Fp. unfold cell_name in Fp at 1. unfold col_n.
    rewrite Fp. reflexivity.
Qed.

Lemma digits_inj a b : digits_of a = digits_of b -> a = b.
Proof. intros E. rewrite <- (val_digits_of a), <- (val_digits_of b), E. reflexivity. Qed.
Lemma shown_names nometa t i l o : shown F nometa t i l o -> forall p, In p (map fst o) -> exists j k v, In (j, (k, v)) (combine (seq i (length l)) l) /\ p = cell_name nometa t j k.
Proof.
  induction 1 as [i|i k v co l o Hc Hh H IH|i k v co w l o Hc Hh Hw H IH]; intros p I; [destruct I| |].
  - destruct (IH p I) as (j & k' & v' & I' & E). exists j, k', v'. split; [right; exact I'|exact E].
  - destruct I as [<-|I]; [exists i, k, v; split; [left; reflexivity|reflexivity]|]. destruct (IH p I) as (j & k' & v' & I' & E). exists j, k', v'. split; [right; exact I'|exact E].
Qed.
Lemma shown_nodup nometa t i l o : NoDup (map fst l) -> shown F nometa t i l o -> NoDup (map fst o).
Proof.
  intros N H. revert N. induction H as [i|i k v co l o Hc Hh H IH|i k v co w l o Hc Hh Hw H IH]; intros N; [constructor| |]; cbn [map fst] in N; apply NoDup_cons_iff in N; destruct N as [N1 N2]; [apply IH, N2|].
  cbn [map fst]. constructor; [|apply IH, N2]. intros X. destruct (shown_names _ _ _ _ _ H _ X) as (j & k' & v' & I' & E). pose proof (in_combine_l _ _ _ _ I') as Ij. pose proof (in_combine_r _ _ _ _ I') as Ik. apply in_seq in Ij. apply (in_map fst) in Ik. cbn [fst] in Ik.
  unfold cell_name in E. destruct (jt_cols t); [destruct nometa|]; try (subst k'; contradiction). apply app_inv_head in E. apply digits_inj in E. lia.
Qed.
Lemma plain_about t : plain t -> inherit de_aboutUrl (jt_schema t) (jt_table t :: jt_outer t) = None.
Proof. intros [(S1 & _) P _]. apply plain_inherit; [exact S1|]. eapply Forall_impl; [|exact P]. intros d (D & _). exact D. Qed.
Lemma plain_describes nometa t row n : plain t -> distinct_headers t -> NoDup (map fst row) -> forall ds,
  describes sc F nometa t row n = Ok ds <-> exists o, shown F nometa t 1 row o /\ ds = [map (fun kv => (fst kv, Raw (snd kv))) o].
Proof.
  intros P N D ds. unfold describes. split.
  - intros H. apply bind_inv in H. destruct H as (ts & H1 & H2). apply triples_ok in H1; [|exact N]. destruct H1 as [(ids & cells & virt & E & A & C & Vi)]. rewrite (plain_about t P) in A. subst ids. rewrite (plain_virtual t P) in Vi. inversion Vi. subst virt.
    rewrite app_nil_r in E. cbn [app] in E. subst ts. destruct (shown_of_described nometa t row n P _ _ _ C) as (o & S & ->). exists o. split; [exact S|].
    assert (G : group_triples (jf_graph F) (fun o0 : option V => match o0 with Some v => jf_as_str F v | None => None end) (map own_triple o) = Ok [map (fun kv => (fst kv, Raw (snd kv))) o]) by (apply group_distinct, (shown_nodup _ _ _ _ _ D S)).
    pose proof (eq_trans (eq_sym H2) G) as X. apply Ok_inj in X. exact X.
  - intros (o & S & ->). destruct (cells_plain nometa t row n P N row 1 o S) as (cells & E1 & E2). unfold row_triples. rewrite (plain_about t P). cbn [bind]. rewrite E1. cbn [bind]. rewrite virtual_resolved, (plain_virtual t P). cbn [map mapM bind app]. rewrite E2, app_nil_r.
    apply group_distinct, (shown_nodup _ _ _ _ _ D S).
Qed.
(** *** Rows are dicts *)
Lemma cells_nodup strict log line hc : forall j r d, NoDup (map fst d) -> NoDup (map fst (ro_dict (read_cells sc strict log line j hc r d))).
Proof.
  induction hc as [|[k [c|]] hc IH]; intros j [|v r] d N; cbn [read_cells]; try exact N.
  - destruct (fst (col_read sc strict (tc_st c) v)) as [x|e]; [cbn [ro_push ro_dict]; apply IH, dset_keys_nodup, N|]. destruct e; try exact N. destruct strict; [destruct log; [apply IH, N|exact N]|cbn [ro_push ro_dict]; apply IH, dset_keys_nodup, N].
  - cbn [ro_push ro_dict]. apply IH, dset_keys_nodup, N.
Qed.
Lemma default_nodup ks : forall d : dict V, NoDup (map fst d) -> NoDup (map fst (setdefault_all d ks)).
Proof. unfold setdefault_all. induction ks as [|k ks IH]; intros d N; [exact N|]. cbn [fold_left]. apply IH. destruct (dget str_eqb d k); [exact N|apply dset_keys_nodup, N]. Qed.
Lemma virtual_nodup ex vs : forall (d d' : dict V), NoDup (map fst d) -> add_virtual sc ex d vs = Ok d' -> NoDup (map fst d').
Proof. induction vs as [|[k u] vs IH]; intros d d' N H; cbn [add_virtual] in H; [apply Ok_inj in H; subst d'; exact N|]. apply bind_inv in H. destruct H as (s & _ & H). eapply IH; [|exact H]. apply dset_keys_nodup, N. Qed.
Lemma row_nodup ex strict log cols line hc r : NoDup (map fst (ro_dict (process_row sc ex strict log cols line hc r))).
Proof.
  unfold process_row. assert (N : NoDup (map fst (ro_dict (read_cells sc strict log line 0 hc r [])))) by (apply cells_nodup; constructor).
  destruct (ro_exn _); [exact N|]. destruct (_ && _); [exact N|]. destruct (add_virtual _ _ _ _) as [d|] eqn:E; [|exact N]. cbn [ro_dict]. eapply virtual_nodup; [|exact E]. apply default_nodup, N.
Qed.
Lemma iter_nodup ex strict log cols rows endr : forall hc, Forall (fun lr => NoDup (map fst (snd lr))) (io_rows (iter_rows sc ex strict log cols hc rows endr)).
Proof.
  induction rows as [|[line r] rows IH]; intros hc; cbn [iter_rows]; [constructor|]. destruct (ro_exn _); [constructor|]. unfold io_cons. cbn [io_rows]. destruct (ro_msgs _); [|apply IH]. constructor; [apply row_nodup|apply IH].
Qed.
Lemma dicts_nodup ex lim d lang strict log cols file : Forall (fun lr => NoDup (map fst (snd lr))) (io_rows (iterdicts sc ex lim d lang strict log cols file)).
Proof.
  unfold iterdicts. destruct (reader_with_line_number _ _ _ _) as [[rows endr]|]; [|constructor].
  assert (G : forall hdr ws rs, Forall (fun lr => NoDup (map fst (snd lr))) (io_rows (iter_data sc ex strict log cols hdr ws rs endr))).
  { intros hdr ws rs. unfold iter_data. destruct (header_cols _ _ _) as [hc|]; [|constructor]. destruct (missing_required _ _); [constructor|]. cbn [io_rows]. apply iter_nodup. }
  destruct (d_header d); [destruct rows as [|[l hdr] rows]; [constructor|apply G]|apply G].
Qed.
End Proofs.
