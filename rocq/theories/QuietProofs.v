(** Non-strict reading is silent iff the table is valid in the sense of QuietSpec.v. *)
From Verif Require Import PyStr PyCsv Dsv DsvProofs4 Json NatLang Column ColumnSpec ColumnProofs Schema Table TableSpec TableProofs TableProofs2 TableProofs3 NamesProofs MarkdownProofs QuietSpec.
From Coq Require Import Lia.

(** *** the header *)
Lemma primary_tag_iff tag p : primary_tag tag = p <-> primary tag p.
Proof.
  unfold primary_tag, primary. change (lit "-") with [45]. split.
  - intros <-. pose proof (split1_nosep 45 tag) as H. pose proof (join_split1 45 tag) as J. pose proof (split1_nonempty 45 tag) as E. destruct (split [45] tag) as [|t l]; [contradiction|]. split; [exact (Forall_inv H)|]. rewrite <- J. destruct l as [|u l]; [left; reflexivity|right; exists (join [45] (u :: l)); reflexivity].
  - intros [Nh [->|(rest & ->)]]; [rewrite split1_none by exact Nh; reflexivity|]. cbn [app]. rewrite split1_app, split1_none by exact Nh. reflexivity.
Qed.
Lemma primary_ex tag : exists p, primary tag p. Proof. exists (primary_tag tag). apply primary_tag_iff. reflexivity. Qed.
Lemma fits_tag lang x t : str_mem (primary_tag (x :: t)) [lit "und"; primary_tag (if nonempty lang then lang else lit "und")] = true <-> language_fits lang (Some (x :: t)).
Proof.
  rewrite str_mem_In. unfold language_fits. split.
  - intros [H|[H|[]]]; right; right; exists (x :: t), (primary_tag (x :: t)); (split; [reflexivity|]); (split; [apply primary_tag_iff; reflexivity|]); [left; symmetry; exact H|].
    destruct lang as [|y lang]; [left; rewrite <- H; reflexivity|right]. split; [discriminate|]. apply primary_tag_iff. exact H.
  - intros [H|[H|(u & p & H & Hp & Hl)]]; try discriminate. injection H as <-. apply primary_tag_iff in Hp. rewrite Hp. destruct Hl as [->|[L Hl]]; [left; reflexivity|]. apply primary_tag_iff in Hl. right. left. destruct lang as [|y lang]; [contradiction|]. exact Hl.
Qed.
Lemma find_split {A} (f : A -> bool) l : match find f l with
  | Some x => exists before after, l = before ++ x :: after /\ f x = true /\ forall y, In y before -> f y = false
  | None => forall y, In y l -> f y = false end.
Proof.
  induction l as [|a l IH]; cbn [find]; [intros y []|]. destruct (f a) eqn:E; [exists [], l; repeat split; [exact E|intros y []]|].
  destruct (find f l) as [x|]; [destruct IH as (b & c & -> & Hx & Hb); exists (a :: b), c; repeat split; [exact Hx|]; intros y [<-|Hy]; auto|intros y [<-|Hy]; auto].
Qed.
Lemma title_functional {V} (c : column V) h t t' : title_in c h t -> title_in c h t' -> t = t'.
Proof.
  intros (nl & b & ts & a & E & -> & Hin & Hb) (nl' & b' & ts' & a' & E' & E2 & Hin' & Hb'). rewrite E in E'. injection E' as <-. clear E.
  revert b' E2 Hb'. induction b as [|x b IH]; intros b' E2 Hb'; destruct b' as [|x' b']; cbn [app] in E2.
  - congruence.
  - injection E2 as <- _. exfalso. exact (Hb' t ts (or_introl eq_refl) Hin).
  - injection E2 as -> _. exfalso. exact (Hb t' ts' (or_introl eq_refl) Hin').
  - injection E2 as -> E2. apply (IH (fun tag u H => Hb tag u (or_intror H)) b' E2 (fun tag u H => Hb' tag u (or_intror H))).
Qed.
(** what has_title says *)
Lemma has_title_cases {V} (c : column V) h :
  (named c h /\ has_title c h = ByName)
  \/ (~ named c h /\ exists tag, title_in c h tag /\ has_title c h = ByLang (match tag with Some (x :: t) => x :: t | _ => lit "und" end))
  \/ (~ named c h /\ (forall tag, ~ title_in c h tag) /\ has_title c h = NoTitle).
Proof.
  unfold has_title, named. destruct (match c_name c with Some n => nonempty n && str_eqb n h | None => false end) eqn:E.
  - left. split; [|reflexivity]. destruct (c_name c) as [n|]; [|discriminate]. apply andb_true_iff in E. destruct E as [E1 E2]. apply str_eqb_eq in E2. subst. split; [reflexivity|]. destruct h; [discriminate E1|discriminate].
  - right. assert (Nn : ~ (c_name c = Some h /\ h <> [])) by (intros [Hc Nh]; rewrite Hc in E; destruct h; [contradiction|]; cbn [nonempty] in E; rewrite str_eqb_refl in E; discriminate E).
    pose proof (find_split (fun kv => str_mem h (snd kv)) (getdef (c_titles c) [])) as F. destruct (find _ _) as [[tag ts]|]; [left|right]; (split; [exact Nn|]).
    + destruct F as (b & a & F1 & F2 & F3). cbn [snd] in *. destruct (c_titles c) as [nl|] eqn:En; [|destruct b; discriminate F1]. cbn [getdef] in F1. subst nl. exists tag. split; [|destruct tag as [[|x t]|]; reflexivity].
      exists (b ++ (tag, ts) :: a), b, ts, a. repeat split; [exact En|apply str_mem_In; exact F2|]. intros tag' ts' H K. specialize (F3 _ H). cbn [snd] in F3. apply str_mem_false in F3. contradiction.
    + split; [|reflexivity]. intros tag (nl & b & ts & a & E1 & -> & Hin & _). rewrite E1 in F. cbn [getdef] in F. specialize (F (tag, ts) ltac:(apply in_or_app; right; left; reflexivity)). cbn [snd] in F. apply str_mem_false in F. contradiction.
Qed.
Lemma name_cases {V} (c : column V) : (nonempty_opt (c_name c) = None /\ forall n, ~ named c n) \/ (exists n, named c n /\ nonempty_opt (c_name c) = Some n).
Proof. unfold named. destruct (c_name c) as [[|x n]|]; [left|right|left]; cbn [nonempty_opt]. - split; [reflexivity|]. intros n [H K]. congruence. - exists (x :: n). repeat split. discriminate. - split; [reflexivity|]. intros n [H _]. discriminate. Qed.
Lemma title_warnings_iff {V} lang (c : column V) h :
  (match nonempty_opt (c_name c), has_title c h with None, NoTitle => [IncompatibleTableModels] | _, _ => [] end
   ++ match has_title c h with
      | ByLang tag => if str_mem (primary_tag tag) [lit "und"; primary_tag (if nonempty lang then lang else lit "und")] then [] else [IncompatibleColumnTitles]
      | _ => []
      end) = [] <-> header_fits lang c h.
Proof.
  unfold header_fits. destruct (has_title_cases c h) as [[Hn E]|[(Hn & tag & Ht & E)|(Hn & Ht & E)]]; rewrite E.
  - assert (Z : match nonempty_opt (c_name c) with Some _ => @nil warning | None => [] end = []) by (destruct (nonempty_opt _); reflexivity). split; [tauto|]. intros _. destruct (nonempty_opt (c_name c)); reflexivity.
  - assert (Z : forall X : list warning, match nonempty_opt (c_name c) with Some _ => @nil warning | None => [] end ++ X = X) by (intros X; destruct (nonempty_opt _); reflexivity).
    assert (F : str_mem (primary_tag (match tag with Some (x :: t) => x :: t | _ => lit "und" end)) [lit "und"; primary_tag (if nonempty lang then lang else lit "und")] = true <-> language_fits lang tag).
    { destruct tag as [[|x t]|]; [|apply fits_tag|]; (split; [intros _; unfold language_fits; tauto|reflexivity]). }
    split.
    + intros H. right. left. exists tag. split; [exact Ht|]. apply F. destruct (str_mem _ _); [reflexivity|]. destruct (nonempty_opt (c_name c)); discriminate H.
    + intros [H|[(tag' & Ht' & L)|[_ H]]]; [contradiction| |exfalso; exact (H tag Ht)]. rewrite (title_functional c h tag' tag Ht' Ht) in L. apply F in L. rewrite L. destruct (nonempty_opt (c_name c)); reflexivity.
  - destruct (name_cases c) as [[-> Hc]|(n & Hc & ->)]; (split; [intros H|intros H; try reflexivity]).
    + discriminate H.
    + exfalso. destruct H as [H|[(tag & H & _)|[(n & H) _]]]; [contradiction|exact (Ht tag H)|exact (Hc n H)].
    + right. right. split; [exists n; exact Hc|exact Ht].
Qed.
Lemma flat_nil {A B} (f : A -> list B) l : flat_map f l = [] <-> forall a, In a l -> f a = [].
Proof.
  induction l as [|x l IH]; cbn [flat_map]; [split; [intros _ a []|reflexivity]|]. split.
  - intros H a [<-|Ha]; apply app_eq_nil in H; [tauto|apply IH; tauto].
  - intros H. rewrite (H x (or_introl eq_refl)). apply IH. intros a Ha. apply H. right. exact Ha.
Qed.
Lemma in_combine_nth {A B} (l : list A) (m : list B) a b : In (a, b) (combine l m) <-> exists j, nth_error l j = Some a /\ nth_error m j = Some b.
Proof.
  revert m. induction l as [|x l IH]; intros [|y m]; cbn [combine In]; try (split; [intros []|intros (j & H & K); destruct j; discriminate]).
  rewrite IH. split.
  - intros [H|(j & H)]; [injection H as -> ->; exists 0%nat; split; reflexivity|exists (S j); exact H].
  - intros ([|j] & H & K); cbn [nth_error] in *; [left; congruence|right; exists j; auto].
Qed.
Lemma header_warnings_iff {V} lang (cols : list (tcol V)) hdr : header_warnings lang cols hdr = [] <-> header_valid lang cols hdr.
Proof.
  unfold header_warnings, header_valid. split.
  - intros H. apply app_eq_nil in H. destruct H as [H1 H2]. split.
    + destruct cols as [|c cols]; [left; reflexivity|right]. cbn [negb andb] in H1. destruct (Nat.ltb_spec (length (c :: cols)) (length hdr)); [discriminate H1|lia].
    + intros j h c Hh Hc. apply title_warnings_iff. exact (proj1 (flat_nil _ _) H2 (h, c) (proj2 (in_combine_nth _ _ _ _) (ex_intro _ j (conj Hh Hc)))).
  - intros [H1 H2]. replace (negb match cols with [] => true | _ => false end && Nat.ltb (length cols) (length hdr)) with false.
    + apply flat_nil. intros [h c] Hin. apply in_combine_nth in Hin. destruct Hin as (j & Hh & Hc). exact (proj2 (title_warnings_iff lang (tc_col c) h) (H2 j h c Hh Hc)).
    + symmetry. destruct H1 as [->|H1]; [reflexivity|]. destruct (Nat.ltb_spec (length cols) (length hdr)); [lia|]. apply andb_false_r.
Qed.

Section Rows.
Context {V : Type} (sc : scalars V) (expand : pystr -> dict V -> res pystr).
Notation hcs := (list (pystr * option (tcol V))).
Lemma header_cols_lax (cols : list (tcol V)) hdr : cols = [] \/ (length hdr <= length cols)%nat ->
  header_cols false cols hdr = Ok (if cols then map (fun h => (h, None)) hdr else combine hdr (map Some cols)).
Proof.
  intros H. unfold header_cols. destruct cols as [|c cols].
  - cbn [length negb andb orb]. destruct hdr as [|h hdr]; [reflexivity|]. destruct (list_eq_dec str_eq_dec (h :: hdr) (colnames (@nil (tcol V)))) as [E|_]; [discriminate E|]. cbn [length Nat.leb orb andb negb].
    generalize (h :: hdr) as l. induction l as [|x l IH]; [reflexivity|]. cbn [mapM]. change (get_column (@nil (tcol V)) x) with (@Ok (option (tcol V)) None). cbn [bind]. rewrite IH. reflexivity.
  - destruct H as [H|H]; [discriminate H|]. rewrite (proj2 (Nat.leb_le _ _) H), orb_true_r. reflexivity.
Qed.

(** *** cells *)
Lemma quiet_cell st text : col_read sc false st text = (match fst (col_read sc true st text) with Ok x => (Ok x, false) | _ => col_read sc false st text end)
  /\ ((exists x, col_read sc false st text = (Ok x, false)) <-> exists x, fst (col_read sc true st text) = Ok x).
Proof.
  assert (A : forall x, fst (col_read sc true st text) = Ok x -> col_read sc false st text = (Ok x, false)).
  { intros x. unfold col_read. cbn zeta. destruct (_ && _); [discriminate|]. destruct (st_separator st) as [sep|]; cbn [fst]; [|intros ->; reflexivity]. destruct (or_default st text) as [|y t]; [cbn; congruence|]. destruct (str_mem _ _); [cbn; congruence|]. destruct (mapM _ _) as [l|[]]; cbn [fst]; congruence. }
  assert (B : forall x, col_read sc false st text = (Ok x, false) -> fst (col_read sc true st text) = Ok x).
  { intros x. unfold col_read. cbn zeta. destruct (_ && _); [discriminate|]. destruct (st_separator st) as [sep|]; cbn [fst]; [|congruence]. destruct (or_default st text) as [|y t]; [cbn; congruence|]. destruct (str_mem _ _); [cbn; congruence|]. destruct (mapM _ _) as [l|[]]; cbn [fst]; congruence. }
  split; [destruct (fst (col_read sc true st text)) as [x|] eqn:E; [apply A; reflexivity|reflexivity]|]. split; intros [x H]; exists x; auto.
Qed.
Lemma elems_noise_iff t l : elems_noise t l = true <-> exists before s after vals, l = before ++ Some s :: after /\ mapM (read_elem sc (Some t)) before = Ok vals /\ dt_noisy t s = true.
Proof.
  induction l as [|[s|] l IH]; cbn [elems_noise].
  - split; [discriminate|]. intros (b & s & a & v & E & _). destruct b; discriminate E.
  - rewrite orb_true_iff. split.
    + intros [H|H]; [exists [], s, l, []; auto|]. destruct (dt_reads t s) as [v|] eqn:R; [|discriminate H]. apply IH in H. destruct H as (b & s' & a & vs & -> & M & N1).
      exists (Some s :: b), s', a, (Some v :: vs). split; [reflexivity|]. split; [|exact N1]. cbn [mapM read_elem]. rewrite R. cbn [bind]. rewrite M. reflexivity.
    + intros ([|x b] & s' & a & vs & E & M & N1); injection E as <- E; [left; exact N1|right]. subst l. cbn [mapM read_elem] in M. destruct (dt_reads t s) as [v|]; [|discriminate M]. cbn [bind] in M. destruct (mapM _ b) as [vs'|] eqn:Mb; [|discriminate M].
      apply IH. eauto 8.
  - rewrite IH. split.
    + intros (b & s & a & vs & -> & M & N1). exists (None :: b), s, a, (None :: vs). split; [reflexivity|]. split; [|exact N1]. cbn [mapM read_elem bind]. rewrite M. reflexivity.
    + intros ([|x b] & s & a & vs & E & M & N1); [discriminate E|]. injection E as <- E. subst l. cbn [mapM read_elem bind] in M. destruct (mapM _ b) as [vs'|] eqn:Mb; [|discriminate M]. eauto 8.
Qed.
Lemma wd_map (st : @settings V) p p' : Forall2 (with_default st) p p' <-> map (or_default st) p = p'.
Proof. rewrite <- (Forall2_map_eq (or_default st)). apply (Forall2_iff sc). intros a b. apply with_default_iff. Qed.
Lemma vals_ok st p v : mapM (fun q => read_elem sc (st_datatype st) (nulled st q)) p = Ok v <-> Forall2 (fun q v => value_reads sc st q (Ok v)) p v.
Proof. rewrite mapM_Ok_iff. apply (Forall2_iff sc). intros a b. symmetry. apply value_reads_iff. Qed.
Lemma noise_iff st text : st_separator st <> Some [] -> col_noise st text = true <-> cell_warned sc st text.
Proof.
  intros Hs. unfold col_noise, cell_warned. cbn zeta. set (v := or_default st text).
  assert (Hv : with_default st text v) by (apply with_default_iff; reflexivity).
  assert (Hu : forall s, with_default st text s -> s = v) by (intros s H; apply with_default_iff in H; symmetry; exact H).
  destruct (str_mem v (st_null st)) eqn:Em.
  { assert (No : ~ exists t s, st_datatype st = Some t /\ text_read sc st text s /\ dt_noisy t s = true).
    { intros (t & s & _ & R & _). apply str_mem_In in Em. destruct R as [s Hw _ Hn|s sep ps ps' b p a vs Hw _ _ Hn _ _ _ _ _]; apply Hu in Hw; subst s; contradiction. }
    split; [|intros H; destruct (No H)]. rewrite andb_true_r. destruct (st_required st); [discriminate|]. destruct (st_datatype st) as [t|]; [|discriminate]. destruct (st_separator st) as [sep|]; [destruct v; discriminate|].
    cbn [elems_noise]. unfold nulled. rewrite Em. discriminate. }
  rewrite andb_false_r. pose proof (proj1 (str_mem_false _ _) Em) as Hn. destruct (st_datatype st) as [t|] eqn:Et; [|split; [discriminate|intros (t & s & H & _); discriminate H]].
  destruct (st_separator st) as [sep|] eqn:Es.
  - destruct v as [|x v'] eqn:Ev; [split; [discriminate|]|].
    { intros (t' & s & _ & R & _). destruct R as [s Hw H _|s0 sep' ps ps' b p a vs Hw _ H _ _ _ _ _ _]; [congruence|apply Hu in Hw; contradiction]. }
    rewrite elems_noise_iff. split.
    + intros (b & s & a & vs & E & M & N1). exists t, s. split; [reflexivity|]. split; [|exact N1].
      rewrite <- (map_map (or_default st) (nulled st)) in E. apply map_eq_app in E. destruct E as (b' & r & Er & Eb & Er'). destruct r as [|p a']; [discriminate Er'|]. cbn [map] in Er'. injection Er' as Ep Ea.
      assert (Ep' : p = s /\ ~ In p (st_null st)) by (unfold nulled in Ep; destruct (str_mem p (st_null st)) eqn:Q; [discriminate Ep|injection Ep as ->; split; [reflexivity|apply str_mem_false; exact Q]]). destruct Ep' as [-> Hp].
      apply (tr_part sc st text (x :: v') sep (split sep (x :: v')) (map (or_default st) (split sep (x :: v'))) b' s a' vs Hv Es); [discriminate|exact Hn|apply split_parts; intros ->; apply Hs; reflexivity|apply wd_map; reflexivity|exact Er| |exact Hp].
      apply vals_ok. rewrite Et. rewrite <- Eb, mapM_map in M. exact M.
    + intros (t' & s & E1 & R & N1). injection E1 as <-. destruct R as [s Hw Ho _|s0 sep' ps ps' b p a vs Hw Ho Hne _ Hp Hd E Hb Hnp]; [congruence|].
      apply Hu in Hw. subst s0. assert (sep' = sep) by congruence. subst sep'. apply parts_split in Hp; [|intros ->; apply Hs; reflexivity]. subst ps. apply wd_map in Hd. rewrite E in Hd. clear E ps'.
      exists (map (nulled st) b), p, (map (nulled st) a), vs. split; [|split; [|exact N1]].
      * rewrite <- (map_map (or_default st) (nulled st)), Hd, map_app. cbn [map]. do 2 f_equal. unfold nulled at 1. rewrite (proj2 (str_mem_false _ _) Hnp). reflexivity.
      * rewrite mapM_map. apply vals_ok in Hb. rewrite Et in Hb. exact Hb.
  - cbn [elems_noise]. unfold nulled. rewrite Em. split.
    + intros H. apply orb_true_iff in H. destruct H as [H|H]; [|destruct (dt_reads t v); discriminate H]. exists t, v. split; [reflexivity|]. split; [|exact H]. apply tr_one; assumption.
    + intros (t' & s & E1 & R & N1). injection E1 as <-. destruct R as [s Hw _ _|s0 sep' ps ps' b p a vs Hw Ho _ _ _ _ _ _ _]; [|congruence]. apply Hu in Hw. subst s. rewrite N1. reflexivity.
Qed.
Definition quiet_row (hc : hcs) (row : list pystr) : Prop :=
  forall j k c v, nth_error hc j = Some (k, Some c) -> nth_error row j = Some v -> (exists x, fst (col_read sc true (tc_st c) v) = Ok x) /\ col_noise (tc_st c) v = false.
Definition silent (o : @rowout V) : Prop := ro_exn o = None /\ ro_warns o = [].
Definition key_of (e : pystr * option (tcol V)) : pystr := match snd e with Some c => tc_header c | None => fst e end.
Lemma read_cells_lax line (hc : hcs) : forall row j d,
  (silent (read_cells sc false false line j hc row d) <-> quiet_row hc row)
  /\ ro_msgs (read_cells sc false false line j hc row d) = []
  /\ (ro_exn (read_cells sc false false line j hc row d) = None -> forall k, dget str_eqb (ro_dict (read_cells sc false false line j hc row d)) k <> None <->
        dget str_eqb d k <> None \/ exists i e, (i < length row)%nat /\ nth_error hc i = Some e /\ key_of e = k).
Proof.
  induction hc as [|[k oc] hc IH]; intros row j d.
  - cbn [read_cells]. split; [|split].
    + split; [intros _ i k c v H; destruct i; discriminate H|intros _; split; reflexivity].
    + reflexivity.
    + intros _ k. cbn [ro_dict]. split; [tauto|]. intros [H|(i & e & _ & H & _)]; [exact H|destruct i; discriminate H].
  - destruct row as [|v row].
    { assert (E : forall oc, read_cells sc false false line j ((k, oc) :: hc) [] d = {| ro_dict := d; ro_msgs := []; ro_warns := []; ro_exn := None |}) by (intros [c|]; reflexivity). rewrite E. split; [|split].
      - split; [intros _ i k' c v _ H; destruct i; discriminate H|intros _; split; reflexivity].
      - reflexivity.
      - intros _ k'. cbn [ro_dict length]. split; [tauto|]. intros [H|(i & e & H & _)]; [exact H|lia]. }
    assert (Keys : forall d1 ko, (forall k', dget str_eqb d1 k' <> None <-> dget str_eqb d k' <> None \/ k' = ko) -> ko = key_of (k, oc) ->
      ro_exn (read_cells sc false false line (S j) hc row d1) = None -> forall k', dget str_eqb (ro_dict (read_cells sc false false line (S j) hc row d1)) k' <> None <->
        dget str_eqb d k' <> None \/ exists i e, (i < length (v :: row))%nat /\ nth_error ((k, oc) :: hc) i = Some e /\ key_of e = k').
    { intros d1 ko Hd Hko Hx k'. rewrite (proj2 (proj2 (IH row (S j) d1)) Hx k'), Hd. split.
      - intros [[H| ->]|(i & e & Hi & He & Hk)]; [left; exact H|right; exists 0%nat, (k, oc); repeat split; [cbn; lia|symmetry; exact Hko]|right; exists (S i), e; repeat split; [cbn; lia|exact He|exact Hk]].
      - intros [H|([|i] & e & Hi & He & Hk)]; [left; left; exact H|left; right; cbn in He; injection He as <-; congruence|right; exists i, e; repeat split; [cbn in Hi; lia|exact He|exact Hk]]. }
    assert (Dset : forall d0 ko (x : pyval V) k', dget str_eqb (dset str_eqb d0 ko x) k' <> None <-> dget str_eqb d0 k' <> None \/ k' = ko).
    { intros d0 ko x k'. destruct (str_eq_dec k' ko) as [->|Nk]; [rewrite dget_dset_same; split; [tauto|discriminate]|rewrite dget_dset_other by exact Nk; tauto]. }
    destruct oc as [c|]; cbn [read_cells].
    + destruct (quiet_cell (tc_st c) v) as [_ Q].
      assert (Head : quiet_row ((k, Some c) :: hc) (v :: row) <-> ((exists x, fst (col_read sc true (tc_st c) v) = Ok x) /\ col_noise (tc_st c) v = false) /\ quiet_row hc row).
      { split; [intros H; split; [exact (H 0%nat k c v eq_refl eq_refl)|intros i; exact (H (S i))]|]. intros [H1 H2] [|i] k' c' v' Hk Hv; cbn [nth_error] in *; [injection Hk as <- <-; injection Hv as <-; exact H1|exact (H2 i k' c' v' Hk Hv)]. }
      rewrite Head, <- Q. destruct (col_read sc false (tc_st c) v) as [[x|e] w] eqn:E; cbn [fst snd].
      * destruct (IH row (S j) (dset str_eqb d (tc_header c) x)) as (I1 & I2 & I3). split; [|split].
        -- unfold silent, ro_push. cbn [ro_exn ro_warns]. destruct w; cbn [app].
           ++ split; [intros [_ H]; destruct (col_noise _ _); discriminate H|intros [[[y H] _] _]; discriminate H].
           ++ unfold silent in I1. destruct (col_noise _ _); cbn [app]; [split; [intros [_ H]; discriminate H|intros [[_ H] _]; discriminate H]|]. rewrite I1. split; [intros H; split; [split; [exists x; reflexivity|reflexivity]|exact H]|tauto].
        -- cbn. exact I2.
        -- cbn [ro_push ro_exn ro_dict]. intros Hx. apply (Keys _ (tc_header c)); [apply Dset|reflexivity|exact Hx].
      * assert (Stop : forall d0 ws e0, (silent (ro_stop d0 ws e0) <-> ((exists y, (@Err (pyval V) e, w) = (Ok y, false)) /\ col_noise (tc_st c) v = false) /\ quiet_row hc row) /\ ro_msgs (ro_stop d0 ws e0) = [] /\ (ro_exn (ro_stop d0 ws e0) = None -> forall k', dget str_eqb (ro_dict (ro_stop d0 ws e0)) k' <> None <-> dget str_eqb d k' <> None \/ exists i e1, (i < length (v :: row))%nat /\ nth_error ((k, Some c) :: hc) i = Some e1 /\ key_of e1 = k')).
        { intros d0 ws e0. split; [|split]; [split; [intros [H _]; discriminate H|intros [[[y H] _] _]; discriminate H]|reflexivity|intros H; discriminate H]. }
        destruct e; try apply Stop.
        destruct (IH row (S j) (dset str_eqb d (tc_header c) (POne (s_str sc v)))) as (I1 & I2 & I3). split; [|split].
        -- split; [|intros [[[y H] _] _]; discriminate H]. intros [_ H]. cbn [ro_push ro_warns] in H. apply app_eq_nil in H. destruct H as [H _]. apply app_eq_nil in H. destruct H as [_ H]. discriminate H.
        -- cbn. exact I2.
        -- cbn [ro_push ro_exn ro_dict]. intros Hx. apply (Keys _ (tc_header c)); [apply Dset|reflexivity|exact Hx].
    + destruct (IH row (S j) (dset str_eqb d k (POne (s_str sc v)))) as (I1 & I2 & I3). split; [|split].
      * unfold silent, ro_push in *. cbn [ro_exn ro_warns app]. rewrite I1. split; [|intros H i; exact (H (S i))]. intros H [|i] k' c' v' Hk Hv; cbn [nth_error] in *; [discriminate Hk|exact (H i k' c' v' Hk Hv)].
      * cbn. exact I2.
      * cbn [ro_push ro_exn ro_dict]. intros Hx. apply (Keys _ k); [apply Dset|reflexivity|exact Hx].
Qed.
(** missing cells *)
Definition complete_row (hc : hcs) (row : list pystr) : Prop :=
  forall j k c, nth_error hc j = Some (k, Some c) -> tc_required c = true -> exists i e, (i < length row)%nat /\ nth_error hc i = Some e /\ ((fst e = k /\ snd e <> None) \/ key_of e = k).
Lemma seen_keys_iff (hc : hcs) n k : In k (seen_keys hc n) <-> exists i c, (i < n)%nat /\ nth_error hc i = Some (k, Some c).
Proof.
  unfold seen_keys. rewrite in_flat_map. split.
  - intros ([k' [c|]] & Hin & Hk); [|destruct Hk]. destruct Hk as [<-|[]]. apply in_firstn in Hin. destruct Hin as (i & Hi & E). exists i, c. auto.
  - intros (i & c & Hi & E). exists (k, Some c). split; [apply in_firstn; exists i; auto|left; reflexivity].
Qed.
Lemma required_keys_in (hc : hcs) k : (exists n, In (k, n) (required_keys hc)) <-> exists j c, nth_error hc j = Some (k, Some c) /\ tc_required c = true.
Proof.
  unfold required_keys. set (L := flat_map _ (combine (seq 0 (length hc)) hc)).
  assert (HL : (exists n, In (k, n) L) <-> exists j c, nth_error hc j = Some (k, Some c) /\ tc_required c = true).
  { unfold L. split.
    - intros (n & H). apply in_flat_map in H. destruct H as ((m & [k' [c|]]) & Hin & H); cbn [fst snd] in H; [|destruct H]. destruct (tc_required c) eqn:R; [|destruct H]. destruct H as [H|[]]. injection H as -> ->. apply in_combine_nth in Hin. destruct Hin as (j & _ & E). exists j, c. auto.
    - intros (j & c & E & R). exists j. apply in_flat_map. exists (j, (k, Some c)). split; [|cbn [fst snd]; rewrite R; left; reflexivity]. apply in_combine_nth. exists j. split; [|exact E]. rewrite nth_error_seq; [reflexivity|]. apply nth_error_Some. congruence. }
  rewrite <- HL. clear HL. clearbody L.
  assert (G : forall l (d : list (pystr * nat)), (exists n, In (k, n) (dset_all str_eqb d l)) <-> (exists n, In (k, n) l) \/ exists n, In (k, n) d).
  { induction l as [|[k1 v1] l IH]; intros d; [cbn; split; [tauto|intros [[n []]|H]; exact H]|].
    assert (Ds : forall d : list (pystr * nat), (exists n, In (k, n) (dset str_eqb d k1 v1)) <-> k = k1 \/ exists n, In (k, n) d).
    { clear. induction d as [|[k2 v2] d IH]; cbn [dset]; [split; [intros (n & [H|[]]); injection H as -> _; left; reflexivity|intros [->|(n & [])]; exists v1; left; reflexivity]|].
      destruct (str_eqb k1 k2) eqn:E.
      - apply str_eqb_eq in E. subst k2. split.
        + intros (n & [H|H]); [injection H as -> _; left; reflexivity|right; exists n; right; exact H].
        + intros [->|(n & [H|H])]; [exists v1; left; reflexivity|injection H as -> _; exists v1; left; reflexivity|exists n; right; exact H].
      - split.
        + intros (n & [H|H]); [injection H as -> ->; right; exists n; left; reflexivity|]. destruct (proj1 IH (ex_intro _ n H)) as [H1|(m & H1)]; [left; exact H1|right; exists m; right; exact H1].
        + intros [H|(n & [H|H])]; [destruct (proj2 IH (or_introl H)) as (m & K); exists m; right; exact K|injection H as -> ->; exists n; left; reflexivity|destruct (proj2 IH (or_intror (ex_intro _ n H))) as (m & K); exists m; right; exact K]. }
    change (dset_all str_eqb d ((k1, v1) :: l)) with (dset_all str_eqb (dset str_eqb d k1 v1) l). rewrite IH, Ds. split.
    - intros [(n & H)|[->|H]]; [left; exists n; right; exact H|left; exists v1; left; reflexivity|right; exact H].
    - intros [(n & [H|H])|H]; [injection H as -> _; right; left; reflexivity|left; exists n; exact H|right; right; exact H]. }
  rewrite G. split; [intros [H|(n & [])]; exact H|intros H; left; exact H].
Qed.
Lemma missing_nil line (hc : hcs) row d : missing_cells line hc row d = [] <->
  forall j k c, nth_error hc j = Some (k, Some c) -> tc_required c = true -> In k (seen_keys hc (length row)) \/ dget str_eqb d k <> None.
Proof.
  unfold missing_cells. rewrite flat_nil. split.
  - intros H j k c E R. destruct (proj2 (required_keys_in hc k) (ex_intro _ j (ex_intro _ c (conj E R)))) as (n & Hin). specialize (H _ Hin). cbn [fst snd] in H. destruct (str_mem k (seen_keys hc (length row))) eqn:M; [left; apply str_mem_In; exact M|right]. destruct (dget str_eqb d k); [discriminate|discriminate H].
  - intros H [k n] Hin. cbn [fst snd]. destruct (proj1 (required_keys_in hc k) (ex_intro _ n Hin)) as (j & c & E & R). destruct (str_mem k (seen_keys hc (length row))) eqn:M; [reflexivity|]. destruct (H j k c E R) as [K|K]; [apply str_mem_In in K; congruence|]. destruct (dget str_eqb d k); [reflexivity|contradiction].
Qed.
Hypothesis Tot : forall u d, exists s, expand u d = Ok s.
Lemma process_lax cols line (hc : hcs) row : silent (process_row sc expand false false cols line hc row) <-> quiet_row hc row /\ complete_row hc row.
Proof.
  destruct (read_cells_lax line hc row 0 []) as (A & B & C). unfold process_row. set (o := read_cells sc false false line 0 hc row []) in *.
  destruct (ro_exn o) as [e|] eqn:E.
  { split; [intros [H _]; congruence|]. intros [Q _]. apply A in Q. destruct Q as [Q _]. congruence. }
  specialize (C eq_refl).
  assert (M : missing_cells line hc row (ro_dict o) = [] <-> complete_row hc row).
  { rewrite missing_nil. unfold complete_row. split; intros H j k c Ej R; specialize (H j k c Ej R).
    - destruct H as [H|H]; [apply seen_keys_iff in H; destruct H as (i & c' & Hi & Hc); exists i, (k, Some c'); repeat split; [exact Hi|exact Hc|left; split; [reflexivity|discriminate]]|]. apply C in H. destruct H as [H|(i & e & Hi & He & Hk)]; [cbn in H; contradiction|]. exists i, e. auto.
    - destruct H as (i & e & Hi & He & [[Hk Hs]|Hk]); [left; apply seen_keys_iff; destruct e as [k' [c'|]]; cbn [fst snd] in *; [subst k'; exists i, c'; auto|contradiction]|right; apply C; right; exists i, e; auto]. }
  destruct (missing_cells line hc row (ro_dict o)) as [|m ms]; cbn [negb andb].
  - destruct (add_virtual_total sc expand Tot (virtualcols cols) (setdefault_all (ro_dict o) (colnames cols))) as (d' & ->). unfold silent at 1. cbn [ro_exn ro_warns]. rewrite <- A. unfold silent. rewrite E. split; [intros [_ H]; split; [auto|apply M; reflexivity]|tauto].
  - unfold silent at 1. cbn [ro_exn]. split; [intros [H _]; discriminate H|]. intros [_ H]. apply M in H. discriminate H.
Qed.
Definition io_silent (o : @iterout V) : Prop := io_end o = None /\ io_warns o = [].
Lemma iter_lax_step cols (hc : hcs) line row rest endr : io_silent (iter_rows sc expand false false cols hc ((line, row) :: rest) endr) <->
  silent (process_row sc expand false false cols line (ensure_cols hc row) row) /\ io_silent (iter_rows sc expand false false cols (ensure_cols hc row) rest endr).
Proof.
  cbn [iter_rows]. set (o := process_row _ _ _ _ _ _ _ _). unfold io_silent, silent. destruct (ro_exn o) as [e|]; cbn [io_end io_warns io_cons].
  - split; [intros [H _]; discriminate H|intros [[H _] _]; discriminate H].
  - split; [intros [H K]; apply app_eq_nil in K; tauto|intros [[_ ->] [H ->]]; auto].
Qed.
Lemma iter_lax cols (hc : hcs) endr rows : hc <> [] -> (io_silent (iter_rows sc expand false false cols hc rows endr) <-> endr = None /\ forall line row, In (line, row) rows -> quiet_row hc row /\ complete_row hc row).
Proof.
  intros Ne. induction rows as [|[line row] rows IH].
  - cbn [iter_rows]. unfold io_silent. cbn [io_end io_warns]. split; [intros [H _]; split; [exact H|intros l r []]|tauto].
  - rewrite iter_lax_step, (ensure_nonempty hc row Ne), process_lax, IH. split.
    + intros [H1 [H2 H3]]. split; [exact H2|]. intros l r [E|Hin]; [injection E as <- <-; exact H1|exact (H3 l r Hin)].
    + intros [H1 H2]. split; [exact (H2 line row (or_introl eq_refl))|]. split; [exact H1|]. intros l r Hin. exact (H2 l r (or_intror Hin)).
Qed.
(** without columns anything goes *)
Definition anonymous (hc : hcs) : Prop := forall k c, In (k, Some c) hc -> tc_required c = false /\ tc_st c = settings_of desc0 [].
Lemma anonymous_ok hc row : anonymous hc -> quiet_row hc row /\ complete_row hc row.
Proof.
  intros A. split.
  - intros j k c v E _. destruct (A k c (nth_error_In _ _ E)) as [_ ->]. split; [destruct v as [|x v]; eexists; reflexivity|destruct v; reflexivity].
  - intros j k c E R. destruct (A k c (nth_error_In _ _ E)) as [H _]. congruence.
Qed.
Lemma ensure_anonymous row : anonymous (ensure_cols (@nil (pystr * option (tcol V))) row).
Proof. intros k c H. cbn [ensure_cols] in H. apply in_map_iff in H. destruct H as (i & E & _). injection E as _ <-. split; reflexivity. Qed.
Lemma iter_lax_empty cols endr rows : io_silent (iter_rows sc expand false false cols [] rows endr) <-> endr = None.
Proof.
  induction rows as [|[line row] rows IH].
  - cbn [iter_rows]. unfold io_silent. cbn. tauto.
  - rewrite iter_lax_step, process_lax. pose proof (ensure_anonymous row) as An. destruct (ensure_cols [] row) as [|e hc] eqn:E; [rewrite IH; split; [tauto|intros H; split; [apply anonymous_ok; exact An|exact H]]|].
    rewrite iter_lax by discriminate. split; [tauto|]. intros H. split; [apply anonymous_ok; exact An|]. split; [exact H|]. intros l r _. apply anonymous_ok. exact An.
Qed.

(** *** a table *)
Variable cols : list (tcol V).
Hypothesis Seps : forall c, In c cols -> st_separator (tc_st c) <> Some [].
Definition hc_of (hdr : list pystr) : hcs := if cols then map (fun h => (h, None)) hdr else combine hdr (map Some cols).
Lemma hc_nth hdr j k c : nth_error (hc_of hdr) j = Some (k, Some c) <-> nth_error hdr j = Some k /\ nth_error cols j = Some c.
Proof.
  unfold hc_of. destruct cols as [|c0 cs] eqn:Ec.
  - split; [intros H; apply nth_error_In in H; apply in_map_iff in H; destruct H as (h & E & _); discriminate E|intros [_ H]; destruct j; discriminate H].
  - rewrite <- Ec. split.
    + intros H. apply nth_error_combine_inv in H. destruct H as [H1 H2]. split; [exact H1|]. rewrite nth_error_map in H2. destruct (nth_error cols j); [injection H2 as ->; reflexivity|discriminate H2].
    + intros [H1 H2]. apply nth_error_combine; [exact H1|]. rewrite nth_error_map, H2. reflexivity.
Qed.
Lemma row_valid_iff hdr row : quiet_row (hc_of hdr) row /\ complete_row (hc_of hdr) row <-> row_valid sc cols hdr row.
Proof.
  unfold row_valid, cell_valid. split.
  - intros [Q C]. split.
    + intros j c text Hj Hc Ht. destruct (nth_error hdr j) as [k|] eqn:E; [|apply nth_error_None in E; lia]. destruct (Q j k c text (proj2 (hc_nth hdr j k c) (conj E Hc)) Ht) as [[x H] N1]. split; [exists x; apply col_read_spec; [apply Seps; exact (nth_error_In _ _ Hc)|exact H]|]. intros K. apply noise_iff in K; [congruence|apply Seps; exact (nth_error_In _ _ Hc)].
    + intros j h c Hh Hc R. destruct (C j h c (proj2 (hc_nth hdr j h c) (conj Hh Hc)) R) as (i & [k' [c'|]] & Hi & He & Hk).
      * apply hc_nth in He. destruct He as [H1 H2]. exists i, k', c'. cbn [fst snd key_of] in Hk. unfold key_of in Hk. cbn [snd] in Hk. tauto.
      * exfalso. unfold hc_of in He. destruct cols as [|c0 cs] eqn:Ec; [destruct j; discriminate Hc|]. apply nth_error_combine_inv in He. destruct He as [_ He]. rewrite nth_error_map in He. destruct (nth_error _ i); discriminate He.
  - intros [Q C]. split.
    + intros j k c v He Hv. apply hc_nth in He. destruct He as [Hk Hc]. assert (Hj : (j < length hdr)%nat) by (apply nth_error_Some; congruence). destruct (Q j c v Hj Hc Hv) as [[x H] N1]. split; [exists x; apply col_read_spec; [apply Seps; exact (nth_error_In _ _ Hc)|exact H]|]. apply not_true_iff_false. intros K. apply N1. apply noise_iff; [apply Seps; exact (nth_error_In _ _ Hc)|exact K].
    + intros j k c He R. apply hc_nth in He. destruct He as [Hk Hc]. destruct (C j k c Hk Hc R) as (i & h' & c' & Hi & Hh & Hc' & Hor). exists i, (h', Some c'). split; [exact Hi|]. split; [apply hc_nth; auto|]. unfold key_of. cbn [fst snd]. destruct Hor as [->|H]; [left; split; [reflexivity|discriminate]|right; exact H].
Qed.
Lemma required_given_iff hdr : missing_required cols (hc_of hdr) = false <-> required_given cols hdr.
Proof.
  rewrite missing_required_iff. unfold required_present, required_given. split; intros H c Hc R; specialize (H c Hc R).
  - destruct H as (h & c' & Hin & Hh). apply In_nth_error in Hin. destruct Hin as (j & Hj). apply hc_nth in Hj. exists j, c'. repeat split; [apply nth_error_Some; destruct Hj; congruence|tauto|exact Hh].
  - destruct H as (j & c' & Hj & Hc' & Hh). destruct (nth_error hdr j) as [h|] eqn:E; [|apply nth_error_None in E; lia]. exists h, c'. split; [|exact Hh]. eapply nth_error_In. apply hc_nth. eauto.
Qed.
Lemma iter_data_lax hdr ws rows endr : cols = [] \/ (length hdr <= length cols)%nat ->
  (io_silent (iter_data sc expand false false cols hdr ws rows endr) <-> ws = [] /\ endr = None /\ data_valid sc cols hdr rows).
Proof.
  intros L. unfold iter_data. rewrite (header_cols_lax cols hdr L). change (if cols then map (fun h => (h, None)) hdr else combine hdr (map Some cols)) with (hc_of hdr). unfold data_valid.
  destruct (missing_required cols (hc_of hdr)) eqn:M.
  { split; [intros [H _]; discriminate H|]. intros (_ & _ & H & _). apply required_given_iff in H. congruence. }
  apply required_given_iff in M.
  assert (X : io_silent (iter_rows sc expand false false cols (hc_of hdr) rows endr) <-> endr = None /\ forall line row, In (line, row) rows -> row_valid sc cols hdr row).
  { destruct (hc_of hdr) as [|e hc] eqn:E.
    - rewrite iter_lax_empty. split; [|tauto]. intros ->. split; [reflexivity|]. intros line row _. apply row_valid_iff. rewrite E. split; [intros j k c v H|intros j k c H]; destruct j; discriminate H.
    - rewrite iter_lax by discriminate. rewrite <- E. split; intros [H1 H2]; (split; [exact H1|]); intros l r Hin; apply row_valid_iff; exact (H2 l r Hin). }
  unfold io_silent in *. cbn [io_end io_warns]. split.
  - intros [H1 H2]. apply app_eq_nil in H2. destruct H2 as [-> H2]. destruct (proj1 X (conj H1 H2)) as [E R]. auto.
  - intros (-> & E & _ & R). destruct (proj2 X (conj E R)) as [H1 H2]. auto.
Qed.
Lemma colnames_short : (length (colnames cols) <= length cols)%nat.
Proof. unfold colnames, regular. rewrite map_length. clear. induction cols as [|c l IH]; cbn [filter length]; [lia|]. destruct (negb _); cbn [length]; lia. Qed.
Theorem lax_iff lim dl lang file : io_silent (iterdicts sc expand lim dl lang false false cols file) <->
  exists rows, reader_with_line_number lim (Some dl) kw0 file = Ok (rows, None) /\ content_valid sc lang dl cols rows.
Proof.
  unfold iterdicts, content_valid. destruct (reader_with_line_number lim (Some dl) kw0 file) as [[rows endr]|e]; [|split; [intros [H _]; discriminate H|intros (r & H & _); discriminate H]].
  destruct (d_header dl).
  - destruct rows as [|[line hdr] rest].
    + split; [intros [H _]; cbn in H; exists []; subst; auto|intros (r & H & _); injection H as <- ->; split; reflexivity].
    + split.
      * intros H. assert (W : header_warnings lang cols hdr = []).
        { unfold iter_data in H. destruct (header_cols false cols hdr); [|destruct H as [H _]; discriminate H]. destruct (missing_required cols a); [destruct H as [H _]; discriminate H|]. destruct H as [_ H]. cbn [io_warns] in H. apply app_eq_nil in H. tauto. }
        apply header_warnings_iff in W. rewrite iter_data_lax in H by exact (proj1 W). destruct H as (_ & -> & D). exists ((line, hdr) :: rest). split; [reflexivity|]. right. exists line, hdr, rest. auto.
      * intros (r & H & [->|(l & h & d & -> & W & D)]); [discriminate H|]. injection H as -> -> -> ->. apply iter_data_lax; [exact (proj1 W)|]. split; [apply header_warnings_iff; exact W|auto].
  - rewrite iter_data_lax by (right; apply colnames_short). split.
    + intros (_ & -> & D). exists rows. auto.
    + intros (r & H & D). injection H as -> ->. auto.
Qed.
End Rows.
