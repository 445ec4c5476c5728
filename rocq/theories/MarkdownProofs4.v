(** Blocks, sections and the document. *)
From Verif Require Import PyStr Dec Dsv DsvProofs4 Json Names NamesSpec NamesProofs Column ColumnProofs Regex JsonText Props_JsonText Frictionless FrictionlessProofs2 Expand Props_Expand DbWriteProofs6
  Markdown MarkdownSpec MarkdownProofs MarkdownProofs2 MarkdownProofs3.

Definition quiet_line (l : pystr) : Prop := startswith section_start l = false /\ l <> property_header /\ l <> column_header.
Lemma quiet_hash l : startswith (lit "#") l = false -> startswith section_start l = false.
Proof.
  destruct l as [|c l]; [reflexivity|]. change (lit "#") with [35]. unfold section_start. change (lit "## <a name=" ++ [34] ++ lit "table-") with (35 :: 35 :: lit " <a name=" ++ [34] ++ lit "table-"). cbn [startswith]. rewrite andb_true_r. intros ->. reflexivity.
Qed.
Lemma quiet_first c l : c <> 35 -> c <> 112 -> c <> 78 -> quiet_line (c :: l).
Proof.
  intros A B C. split; [|split; intros E; injection E; congruence]. unfold section_start. change (lit "## <a name=" ++ [34] ++ lit "table-") with (35 :: 35 :: lit " <a name=" ++ [34] ++ lit "table-"). cbn [startswith]. destruct (N.eqb_spec 35 c); [congruence|reflexivity].
Qed.
Lemma quiet_nil : quiet_line [].
Proof. split; [reflexivity|]. split; discriminate. Qed.
Lemma cells_not_property l : length (split (lit "|") l) = 3%nat -> l <> property_header.
Proof. intros H ->. discriminate H. Qed.
Lemma cells_not_column l : length (split (lit "|") l) = 2%nat -> l <> column_header.
Proof. intros H ->. discriminate H. Qed.

(** *** The reader *)
Lemma sections_skip pre ls : Forall (fun l => startswith section_start l = false) pre -> sections (pre ++ ls) = (pre ++ fst (sections ls), snd (sections ls)).
Proof.
  induction 1 as [|l pre H _ IH]; [cbn [app]; apply surjective_pairing|]. cbn [app sections]. rewrite IH, H. reflexivity.
Qed.
Lemma sections_start h ls : startswith section_start h = true -> sections (h :: ls) = ([], (h :: fst (sections ls)) :: snd (sections ls)).
Proof. intros H. cbn [sections]. destruct (sections ls) as [pre secs]. rewrite H. reflexivity. Qed.
Lemma below_skip h pre ls : Forall (fun l => l <> h) pre -> table_below h (pre ++ ls) = table_below h ls.
Proof. induction 1 as [|l pre H _ IH]; [reflexivity|]. cbn [app table_below]. destruct (str_eqb l h) eqn:E; [apply str_eqb_eq in E; contradiction|exact IH]. Qed.
Lemma below_none h ls : Forall (fun l => l <> h) ls -> table_below h ls = [].
Proof. intros H. rewrite <- (app_nil_r ls), below_skip by exact H. reflexivity. Qed.
Lemma below_found h sep rows rest : Forall (fun l => l <> []) rows -> (rest = [] \/ exists r, rest = [] :: r) -> table_below h (h :: sep :: rows ++ rest) = map (split (lit "|")) rows.
Proof.
  intros R E. cbn [table_below tl]. rewrite str_eqb_refl. f_equal. induction R as [|l rows H _ IH]; [destruct E as [->|(r & ->)]; reflexivity|]. cbn [app until_empty]. destruct l; [contradiction|]. rewrite IH. reflexivity.
Qed.

Lemma filter_two {A} (f g : A -> bool) l : filter f (filter g l) = filter (fun x => g x && f x) l.
Proof. induction l as [|x l IH]; [reflexivity|]. cbn [filter]. destruct (g x); cbn [filter andb]; [destruct (f x); rewrite IH; reflexivity|exact IH]. Qed.
Lemma fget_in d k v : fget d k = Some v -> In (lit k, v) d.
Proof.
  unfold fget. induction d as [|[k' v'] d IH]; cbn [dget]; [discriminate|]. destruct (str_eqb (lit k) k') eqn:E; [apply str_eqb_eq in E; subst; intros H; injection H as <-; left; reflexivity|]. intros H. right. apply IH. exact H.
Qed.
Definition is_dict (d : jdict) : Prop := NoDup (map fst d).
Lemma fget_filter (f : pystr * json -> bool) d k : is_dict d -> fget (filter f d) k = match fget d k with Some v => if f (lit k, v) then Some v else None | None => None end.
Proof.
  unfold fget, is_dict. induction d as [|[k' v'] d IH]; intros N; [reflexivity|]. cbn [map fst] in N. inversion N; subst. cbn [filter dget]. destruct (str_eqb (lit k) k') eqn:E.
  - apply str_eqb_eq in E. subst k'. destruct (f (lit k, v')) eqn:F; cbn [dget]; [rewrite str_eqb_refl; reflexivity|]. rewrite IH by assumption. destruct (dget str_eqb d (lit k)) as [v|] eqn:G; [|reflexivity]. exfalso. apply fget_in in G. apply (in_map fst) in G. contradiction.
  - destruct (f (k', v')); cbn [dget]; [rewrite E|]; apply IH; assumption.
Qed.
Section Blocks.
Variable U : unicode.
Variable str_of : json -> pystr.
Variables space word : N -> bool.
Hypothesis space_bar : space 124 = false.
Hypothesis word_bar : word 124 = false.
Hypothesis none_text : one_line_text (str_of JNull).
Definition prop_row (kv : pystr * json) (row : pystr) : Prop :=
  property_says str_of kv (split (lit "|") row) /\ ~ In LF row /\ row <> [] /\ startswith (lit "#") row = false /\ length (split (lit "|") row) = 2%nat.
Lemma image_lines v s : image str_of v = Ok s -> tidy_property str_of (lit "https://schema.org/image", v) ->
  exists l, lines_of s = [33 :: l; []] /\ (forall d, v = JObj d -> 33 :: l = lit "![" ++ match fget d "https://schema.org/caption" with Some c => if truthy c then text_of str_of c else [] | None => [] end ++ lit "]("
      ++ match fget d "https://schema.org/contentUrl" with Some u => text_of str_of u | None => text_of str_of JNull end ++ lit ")").
Proof.
  intros H T. unfold tidy_property in T. cbn [fst snd] in T. change (str_eqb (lit "https://schema.org/image") (lit "dc:description")) with false in T. rewrite str_eqb_refl in T. cbn [negb] in T. unfold image in H. apply bind_inv in H. destruct H as (d & Hd & H). cbn zeta in H. apply Ok_inj in H.
  assert (L : forall k x, fget d k = Some x -> one_line_text (py_str str_of x) \/ k <> "https://schema.org/caption"%string /\ k <> "https://schema.org/contentUrl"%string).
  { destruct v as [| | | |s0| |o]; try discriminate Hd; apply Ok_inj in Hd; subst d.
    - intros k x X. right. apply fget_in in X. destruct X as [X|[]]. injection X as X _. split; intros ->; discriminate X.
    - intros k x X. left. apply fget_in in X. rewrite Forall_forall in T. exact (T _ X). }
  match type of H with lit "![" ++ ?c ++ lit "](" ++ ?u ++ lit ")" ++ [LF] = s => set (cap := c) in H; set (url := u) in H end.
  assert (C : one_line_text cap).
  { unfold cap. destruct (fget d "https://schema.org/caption") as [x|] eqn:E; [|intros []]. destruct (truthy x); [|intros []]. destruct (L _ _ E) as [X|[X _]]; [exact X|congruence]. }
  assert (V : one_line_text url).
  { unfold url. destruct (fget d "https://schema.org/contentUrl") as [x|] eqn:E; [|exact none_text]. destruct (L _ _ E) as [X|[_ X]]; [exact X|congruence]. }
  exists (lit "[" ++ cap ++ lit "](" ++ url ++ lit ")"). assert (E : s = (33 :: lit "[" ++ cap ++ lit "](" ++ url ++ lit ")") ++ LF :: []) by (rewrite <- H; cbn [app]; rewrite <- !app_assoc; reflexivity).
  split.
  - rewrite E, lines_app, lines_one; [reflexivity|]. unfold one_line_text in *. cbn [In]. rewrite !in_app_iff. intros [I|[I|[I|[I|[I|I]]]]]; try tauto; vm_compute in I; intuition discriminate.
  - intros o ->. apply Ok_inj in Hd. subst d. unfold cap, url. destruct (fget o "https://schema.org/contentUrl"); reflexivity.
Qed.
Lemma props_lines props s : properties str_of props = Ok s -> Forall (tidy_property str_of) props -> is_dict props ->
  exists D T, lines_of s = D ++ T ++ [[]] /\ (Forall quiet_line D /\ description_shown props D /\ image_shown str_of props D) /\
    ((listed shown_elsewhere props = [] /\ T = []) \/ exists rows, T = property_header :: lit " --- | ---" :: rows /\ Forall2 prop_row (listed shown_elsewhere props) rows).
Proof.
  intros H T Nd. unfold properties in H. set (ps := filter (fun kv => truthy (snd kv)) props) in *. cbn zeta in H. apply bind_inv in H. destruct H as (desc & Hd & H). apply bind_inv in H. destruct H as (img & Hi & H). apply Ok_inj in H.
  assert (P : forall k v, fget ps k = Some v -> tidy_property str_of (lit k, v)).
  { intros k v E. apply fget_in in E. apply filter_In in E. destruct E as [E _]. rewrite Forall_forall in T. exact (T _ E). }
  assert (L : filter (fun kv : pystr * json => negb (str_eqb (fst kv) (lit "dc:description") || str_eqb (fst kv) (lit "https://schema.org/image"))) ps = listed shown_elsewhere props).
  { unfold ps, listed. rewrite filter_two. apply filter_ext. intros kv. f_equal. f_equal. unfold shown_elsewhere, str_mem. cbn [existsb]. rewrite orb_false_r. reflexivity. }
  rewrite L in H. clear L.
  assert (Dq : Forall (fun b => Forall quiet_line (lines_of b)) desc).
  { destruct (fget ps "dc:description") as [[| | | |d| |]|] eqn:E; try discriminate Hd; apply Ok_inj in Hd; subst desc; [|constructor]. specialize (P _ _ E). unfold tidy_property in P. cbn [fst snd] in P. rewrite str_eqb_refl in P. constructor; [|constructor].
    rewrite lines_app. apply Forall_app. split; [exact P|constructor; [apply quiet_nil|constructor]]. }
  assert (Iq : Forall (fun b => Forall quiet_line (lines_of b)) img).
  { destruct (fget ps "https://schema.org/image") as [v|] eqn:E; [|apply Ok_inj in Hi; subst img; constructor]. apply bind_inv in Hi. destruct Hi as (x & Hx & Hi). apply Ok_inj in Hi. subst img. destruct (image_lines v x Hx (P _ _ E)) as (l & El & _). constructor; [|constructor]. rewrite El. constructor; [apply quiet_first; discriminate|constructor; [apply quiet_nil|constructor]]. }
  assert (R : Forall2 prop_row (listed shown_elsewhere props) (map (fun kv => qname2link (fst kv) false ++ lit " | " ++ htmlify str_of (snd kv)) (listed shown_elsewhere props))).
  { assert (X : Forall (fun kv => tidy_property str_of kv /\ str_mem (fst kv) shown_elsewhere = false) (listed shown_elsewhere props)).
    { rewrite Forall_forall. intros kv I. unfold listed in I. apply filter_In in I. destruct I as [I B]. apply andb_true_iff in B. destruct B as [_ B]. apply negb_true_iff in B. rewrite Forall_forall in T. split; [exact (T _ I)|exact B]. }
    clear -X. induction X as [|kv l [Tk N] _ IH]; [constructor|]. cbn [map]. constructor; [|exact IH]. unfold str_mem, shown_elsewhere in N. cbn [existsb] in N. rewrite orb_false_r in N. apply orb_false_iff in N. destruct N as [N1 N2]. unfold tidy_property in Tk. rewrite N1, N2 in Tk. destruct Tk as (A & B & C). exact (proprow_ok str_of kv A B C). }
  set (rows := match listed shown_elsewhere props with [] => [] | _ :: _ => _ end) in H.
  assert (Q : lines_of s = lines_of (join [LF] (desc ++ img ++ rows)) ++ [[]]) by (rewrite <- H, lines_app; reflexivity).
  assert (F : Forall quiet_line (concat (map lines_of (desc ++ img)))).
  { apply Forall_concat, Forall_map, Forall_app. split; assumption. }
  assert (Sh : description_shown props (concat (map lines_of (desc ++ img))) /\ image_shown str_of props (concat (map lines_of (desc ++ img)))).
  { unfold ps in Hd, Hi. rewrite fget_filter in Hd, Hi by exact Nd. cbn [snd] in Hd, Hi. split.
    - intros d0 E Ne. rewrite E in Hd. destruct d0 as [|c0 d0]; [congruence|]. cbn [truthy] in Hd. apply Ok_inj in Hd. subst desc. exists [], ([[]] ++ concat (map lines_of img)). change (concat (map lines_of ([(c0 :: d0) ++ [LF]] ++ img))) with (lines_of ((c0 :: d0) ++ LF :: []) ++ concat (map lines_of img)). rewrite lines_app, <- app_assoc. reflexivity.
    - intros o E Ne. rewrite E in Hi. destruct o as [|kv o]; [congruence|]. cbn [truthy] in Hi. apply bind_inv in Hi. destruct Hi as (x & Hx & Hi). apply Ok_inj in Hi. subst img.
      assert (Tk : tidy_property str_of (lit "https://schema.org/image", JObj (kv :: o))) by (apply fget_in in E; rewrite Forall_forall in T; exact (T _ E)).
      destruct (image_lines _ x Hx Tk) as (l & El & Eq). specialize (Eq _ eq_refl). rewrite map_app, concat_app. apply in_or_app. right. cbn [map concat]. rewrite app_nil_r. unfold pystr in *. rewrite El. left. exact Eq. }
  destruct (listed shown_elsewhere props) as [|p ps'] eqn:El.
  - exists (lines_of (join [LF] (desc ++ img))), []. unfold rows in Q. rewrite app_nil_r in Q. split; [exact Q|]. split; [|left; split; reflexivity]. destruct (desc ++ img) as [|b bs] eqn:Eb; [|rewrite lines_join by discriminate; split; [exact F|exact Sh]].
    split; [constructor; [apply quiet_nil|constructor]|]. cbn [map concat] in Sh. destruct Sh as [S1 S2]. split.
    + intros s0 E Ne. destruct (S1 s0 E Ne) as (b & a & X). exfalso. symmetry in X. apply app_eq_nil in X. destruct X as [_ X]. apply app_eq_nil in X. destruct X as [X _]. exact (split1_nonempty _ _ X).
    + intros o E Ne. destruct (S2 o E Ne).
  - set (rs := map (fun kv : pystr * json => qname2link (fst kv) false ++ lit " | " ++ htmlify str_of (snd kv)) (p :: ps')) in *.
    exists (concat (map lines_of (desc ++ img))), (property_header :: lit " --- | ---" :: rs). split; [|split; [split; [exact F|exact Sh]|right; exists rs; split; [reflexivity|exact R]]].
    rewrite Q, lines_join by (unfold rows; intros E; apply app_eq_nil in E; destruct E as [_ E]; apply app_eq_nil in E; destruct E as [_ E]; discriminate E). rewrite app_assoc, map_app, concat_app, <- app_assoc. f_equal. f_equal.
    assert (E : concat (map lines_of rs) = rs).
    { clear -R. induction R as [|kv r l rs (_ & N & _) _ IH]; [reflexivity|]. cbn [map concat]. rewrite IH, lines_one by exact N. reflexivity. }
    change rows with ((lit "property | value" ++ [LF] ++ lit " --- | ---") :: rs). cbn [map concat]. rewrite E. change (lit "property | value" ++ [LF] ++ lit " --- | ---") with (lit "property | value" ++ LF :: lit " --- | ---"). rewrite lines_app, !lines_one by (vm_compute; intuition discriminate). reflexivity.
Qed.

(** *** A table *)
Definition col_row (t : mtable) (c : mcol) (row : pystr) : Prop :=
  column_says U space word t c (split (lit "|") row) /\ ~ In LF row /\ (exists x r, row = x :: r /\ (x = 91 \/ x = 96)) /\ length (split (lit "|") row) = 3%nat.
Lemma below_props T D h ls post : Forall quiet_line D -> (h = property_header \/ h = column_header) ->
  (ls = [] /\ T = [] \/ exists rows, T = property_header :: lit " --- | ---" :: rows /\ Forall2 prop_row ls rows) ->
  table_below h (D ++ T ++ [[]] ++ post) = if str_eqb h property_header then match T with [] => table_below h ([[]] ++ post) | _ => map (split (lit "|")) (tl (tl T)) end else table_below h ([[]] ++ post).
Proof.
  intros Q E R. rewrite below_skip by (apply (Forall_impl _) with (2 := Q); intros l (_ & A & B); destruct E; subst; assumption).
  destruct R as [[_ ->]|(rows & -> & R)]; [destruct (str_eqb h property_header); reflexivity|]. assert (N : Forall (fun l => l <> []) rows) by (clear -R; induction R as [|? ? ? ? (_ & _ & N & _) _ IH]; constructor; assumption).
  destruct E as [->| ->].
  - rewrite str_eqb_refl. cbn [app tl]. rewrite below_found; [reflexivity|exact N|right; exists post; reflexivity].
  - change (str_eqb column_header property_header) with false. apply (below_skip column_header (property_header :: lit " --- | ---" :: rows)). constructor; [discriminate|]. constructor; [discriminate|]. clear -R. induction R as [|? ? ? ? (_ & _ & _ & _ & L) _ IH]; constructor; [apply cells_not_column; exact L|exact IH].
Qed.
Lemma floats_list l : (fix all l := match l with [] => True | x :: r => tidy_floats x /\ all r end) l -> Forall tidy_floats l.
Proof. induction l as [|x l IH]; [constructor|]. intros [H K]. constructor; [exact H|apply IH; exact K]. Qed.
Lemma floats_obj d : (fix all (d : list (pystr * json)) := match d with [] => True | (_, x) :: r => tidy_floats x /\ all r end) d -> Forall (fun kv => tidy_floats (snd kv)) d.
Proof. induction d as [|[k x] d IH]; [constructor|]. intros [H K]. constructor; [exact H|apply IH; exact K]. Qed.
Lemma printable_one_line s : Forall (fun c => 32 <= c <= 126) s -> one_line_text s.
Proof. intros F I. rewrite Forall_forall in F. apply F in I. unfold LF in I. lia. Qed.
Lemma one_app a b : one_line_text a -> one_line_text b -> one_line_text (a ++ b).
Proof. unfold one_line_text. rewrite in_app_iff. tauto. Qed.
Lemma one_join sep l : one_line_text sep -> Forall one_line_text l -> one_line_text (join sep l).
Proof. intros Hs H. induction H as [|x l Hx H IH]; [intros []|]. destruct l as [|y l]; [exact Hx|]. change (one_line_text (x ++ sep ++ join sep (y :: l))). apply one_app; [exact Hx|]. apply one_app; [exact Hs|exact IH]. Qed.
Lemma dump_one_line v : forall level, tidy_floats v -> one_line_text (dump one_line level v).
Proof.
  assert (LP : forall s, forallb (fun c => (32 <=? c) && (c <=? 126)) s = true -> one_line_text s) by (intros s E; apply printable_one_line, lit_printable, E).
  induction v as [|b|z|r|s|l IH|kvs IH] using json_ind'; intros level T.
  - apply LP. reflexivity.
  - destruct b; apply LP; reflexivity.
  - apply printable_one_line, int_printable.
  - cbn [dump tidy_floats] in *. unfold dump_float. repeat match goal with |- one_line_text (if ?b then _ else _) => destruct b; [apply LP; reflexivity|] end. exact T.
  - apply printable_one_line, dump_str_printable.
  - cbn [tidy_floats] in T. apply floats_list in T. destruct l as [|x l]; [apply LP; reflexivity|]. change (one_line_text (lit "[" ++ [] ++ join (lit ", " ++ []) (map (fun x => dump one_line (S level) x) (x :: l)) ++ [] ++ lit "]")). apply one_app; [apply LP; reflexivity|]. apply one_app; [intros []|]. apply one_app; [|apply LP; reflexivity].
    apply one_join; [apply LP; reflexivity|]. apply Forall_forall. intros t Ht. apply in_map_iff in Ht. destruct Ht as (y & <- & Hy). rewrite Forall_forall in IH, T. apply IH; [exact Hy|apply T, Hy].
  - cbn [tidy_floats] in T. apply floats_obj in T. destruct kvs as [|x kvs]; [apply LP; reflexivity|]. change (one_line_text (lit "{" ++ [] ++ join (lit ", " ++ []) (map (fun kv => dump_str (fst kv) ++ lit ": " ++ dump one_line (S level) (snd kv)) (x :: kvs)) ++ [] ++ lit "}")). apply one_app; [apply LP; reflexivity|]. apply one_app; [intros []|]. apply one_app; [|apply LP; reflexivity].
    apply one_join; [apply LP; reflexivity|]. apply Forall_forall. intros t Ht. apply in_map_iff in Ht. destruct Ht as (y & <- & Hy). rewrite Forall_forall in IH, T. apply one_app; [apply printable_one_line, dump_str_printable|]. apply one_app; [apply LP; reflexivity|]. apply IH; [exact Hy|apply T, Hy].
Qed.
Lemma table_lines g link t blocks : table_md U str_of space word g link t = Ok blocks -> tidy_table str_of space word t -> (forall d, mg_dialect g = Some d -> tidy_floats (JObj d)) ->
  exists h body, concat (map lines_of blocks) = [] :: h :: body /\ startswith section_start h = true /\ Forall (fun l => startswith section_start l = false) body /\
    forall post, (post = [] \/ post = [[]]) -> section_says U str_of space word g link t (read_section (h :: body ++ post)).
Proof.
  intros H T Gd. unfold table_md in H. apply bind_inv in H. destruct H as (fks & Hf & H). apply bind_inv in H. destruct H as (a & Ha & H). cbn zeta in H. apply bind_inv in H. destruct H as (ps & Hp & H). apply bind_inv in H. destruct H as (di & Hdi & H). apply bind_inv in H. destruct H as (rows & Hr & H). apply Ok_inj in H.
  destruct (props_lines _ _ Hp (tt_props _ _ _ _ T) (tt_dict _ _ _ _ T)) as (D & PT & Lp & (QD & SD & SI) & PR).
  assert (R : Forall2 (col_row t) (mt_cols t) rows).
  { apply mapM_Forall2 in Hr. pose proof (tt_cols _ _ _ _ T) as C. clear H. revert C. induction Hr as [|c r cs rs Hc _ IH]; intros C; [constructor|]. constructor; [|apply IH; exact (Forall_inv_tail C)]. exact (colrow_ok U str_of space word space_bar word_bar t c fks r T (Forall_inv C) Hf Hc). }
  assert (Tf : tidy_floats (JObj di)).
  { destruct (mt_dialect t) as [d|] eqn:E; [apply Ok_inj in Hdi; subst; exact (tt_dialect _ _ _ _ T _ E)|]. destruct (mg_dialect g) as [d|] eqn:E2; [apply Ok_inj in Hdi; subst; exact (Gd _ eq_refl)|discriminate]. }
  set (dl := match di with [] => [] | _ => [[]; lit "**CSV dialect**: `" ++ dumps one_line (JObj di) ++ lit "`"; []] end).
  set (linked := link && match mg_fname g with Some _ => true | None => false end && mt_exists t) in H.
  set (h0 := lit "## <a name=" ++ [34] ++ lit "table-" ++ a ++ [34] ++ lit "></a>Table ") in H.
  set (h := if linked then h0 ++ lit "[" ++ mt_url t ++ lit "](" ++ mt_url t ++ lit ")" else h0 ++ mt_url t).
  set (gap := if linked then [[]; []] else [[]] : list pystr).
  assert (Tu := tt_url _ _ _ _ T).
  assert (H0 : one_line_text h0).
  { unfold h0, one_line_text. rewrite !in_app_iff. pose proof (slug_cell _ _ _ _ _ Ha) as [S _]. intros [I|[I|[I|[I|[I|I]]]]]; try tauto; vm_compute in I; intuition discriminate. }
  assert (H1 : one_line_text h).
  { unfold h, one_line_text in *. destruct linked; rewrite !in_app_iff; [intros [I|[I|[I|[I|[I|I]]]]]|intros [I|I]]; try tauto; vm_compute in I; intuition discriminate. }
  assert (St : startswith section_start h = true).
  { unfold h. destruct linked; unfold h0; apply startswith_spec; eexists; unfold section_start; rewrite <- !app_assoc; reflexivity. }
  assert (Cr : concat (map lines_of rows) = rows).
  { clear -R. induction R as [|c r cs rs (_ & N & _) _ IH]; [reflexivity|]. cbn [map concat]. rewrite IH, lines_one by exact N. reflexivity. }
  assert (E : concat (map lines_of blocks) = [] :: h :: (gap ++ (D ++ PT ++ [[]]) ++ dl ++ [[]; lit "### Columns"; []; column_header; lit " --- | --- | --- "]) ++ rows).
  { rewrite <- H. rewrite !map_app, !concat_app. match goal with |- _ ++ _ ++ _ ++ ?x = _ => replace x with rows by (symmetry; exact Cr) end. cbn [map concat]. rewrite Lp. rewrite !app_nil_r.
    assert (E1 : lines_of ([LF] ++ (if linked then h0 ++ lit "[" ++ mt_url t ++ lit "](" ++ mt_url t ++ lit ")" ++ [LF] else h0 ++ mt_url t) ++ [LF]) = [] :: h :: gap).
    { change ([LF] ++ ?x) with ([] ++ LF :: x). rewrite lines_app. rewrite lines_app. unfold h, gap in *. destruct linked; [|rewrite (lines_one (h0 ++ mt_url t)) by exact H1; reflexivity].
      assert (X : h0 ++ lit "[" ++ mt_url t ++ lit "](" ++ mt_url t ++ lit ")" ++ [LF] = (h0 ++ lit "[" ++ mt_url t ++ lit "](" ++ mt_url t ++ lit ")") ++ LF :: []) by (rewrite <- !app_assoc; reflexivity). rewrite X, lines_app, (lines_one (h0 ++ _)) by exact H1. reflexivity. }
    rewrite E1.
    assert (E2 : concat (map lines_of match di with [] => [] | _ :: _ => [[LF] ++ lit "**CSV dialect**: `" ++ dumps one_line (JObj di) ++ lit "`" ++ [LF]] end) = dl).
    { unfold dl. destruct di as [|kv di]; [reflexivity|]. cbn [map concat]. rewrite app_nil_r. set (j := dumps one_line (JObj (kv :: di))). assert (J : one_line_text j) by (apply dump_one_line; exact Tf).
      assert (X : [LF] ++ lit "**CSV dialect**: `" ++ j ++ lit "`" ++ [LF] = [] ++ LF :: (lit "**CSV dialect**: `" ++ j ++ lit "`") ++ LF :: []) by (cbn [app]; rewrite <- !app_assoc; reflexivity). rewrite X. rewrite lines_app, lines_app, (lines_one (lit "**CSV dialect**: `" ++ j ++ lit "`")); [reflexivity|].
      unfold one_line_text in *. rewrite !in_app_iff. intros [I|[I|I]]; try tauto; vm_compute in I; intuition discriminate. }
    unfold pystr in *. rewrite E2. idtac.
    cbn [app]. rewrite <- !app_assoc. reflexivity. }
  eexists h, _. split; [rewrite E; reflexivity|]. split; [exact St|].
  assert (Qr : Forall quiet_line (D ++ dl)).
  { apply Forall_app. split; [exact QD|]. unfold dl. destruct di; [constructor|]. constructor; [apply quiet_nil|]. constructor; [apply quiet_first; discriminate|]. constructor; [apply quiet_nil|constructor]. }
  apply Forall_app in Qr. destruct Qr as [_ Qd].
  split.
  - rewrite !Forall_app. assert (Qs : forall l, quiet_line l -> startswith section_start l = false) by (intros l (X & _); exact X). repeat split.
    + unfold gap. destruct linked; repeat constructor.
    + apply (Forall_impl _) with (2 := QD). exact Qs.
    + destruct PR as [[_ ->]|(prows & -> & PR)]; [constructor|]. constructor; [reflexivity|]. constructor; [reflexivity|]. clear -PR. induction PR as [|? ? ? ? (_ & _ & _ & S & _) _ IH]; constructor; [apply quiet_hash; exact S|exact IH].
    + constructor; [reflexivity|constructor].
    + apply (Forall_impl _) with (2 := Qd). exact Qs.
    + repeat constructor.
    + clear -R Qs. induction R as [|? ? ? ? (_ & _ & (x & r & -> & X) & _) _ IH]; constructor; [|exact IH]. apply Qs. apply quiet_first; destruct X; subst; discriminate.
  - intros post Hpost.
    assert (Hh : forall k, k = property_header \/ k = column_header -> h <> k).
    { intros k Hk ->. apply startswith_spec in St. destruct St as (r & St). destruct Hk as [-> | ->]; discriminate St. }
    assert (Sk : forall k, k = property_header \/ k = column_header -> table_below k (h :: ((gap ++ (D ++ PT ++ [[]]) ++ dl ++ [[]; lit "### Columns"; []; column_header; lit " --- | --- | --- "]) ++ rows) ++ post)
       = table_below k (D ++ PT ++ [[]] ++ dl ++ [[]; lit "### Columns"; []; column_header; lit " --- | --- | --- "] ++ rows ++ post)).
    { intros k Hk. rewrite <- !app_assoc. change (h :: gap ++ ?x) with ((h :: gap) ++ x). apply below_skip. constructor; [apply Hh; exact Hk|]. unfold gap. destruct linked; repeat constructor; destruct Hk; subst; discriminate. }
    assert (Pp : post = [] \/ exists r, post = [] :: r) by (destruct Hpost as [-> | ->]; [left; reflexivity|right; exists []; reflexivity]).
    constructor; cbn [se_lines se_header se_props se_cols read_section hd].
    + exists a. split; [exact Ha|]. unfold h, section_start, linked, h0. destruct link; cbn [andb]; [|left; rewrite <- !app_assoc; reflexivity]. destruct (mg_fname g); cbn [andb]; [|left; rewrite <- !app_assoc; reflexivity]. destruct (mt_exists t) eqn:Ex; [|left; rewrite <- !app_assoc; reflexivity].
      right. split; [reflexivity|]. split; [reflexivity|]. rewrite <- !app_assoc. reflexivity.
    + intros s0 E0 Ne. destruct (SD s0 E0 Ne) as (b & af & ->). exists ((h :: gap) ++ b), (af ++ PT ++ [[]] ++ dl ++ [[]; lit "### Columns"; []; column_header; lit " --- | --- | --- "] ++ rows ++ post). cbn [app]. rewrite <- !app_assoc. reflexivity.
    + intros o E0 Ne. right. apply in_or_app. left. apply in_or_app. left. apply in_or_app. right. apply in_or_app. left. apply in_or_app. left. exact (SI o E0 Ne).
    + intros d0 E0 Ne. assert (di = d0) as <-.
      { destruct E0 as [E0|[E0 E1]]; rewrite E0 in Hdi; [|rewrite E1 in Hdi]; apply Ok_inj in Hdi; congruence. }
      right. apply in_or_app. left. apply in_or_app. left. apply in_or_app. right. apply in_or_app. right. apply in_or_app. left. unfold dl. destruct di; [congruence|]. right. left. reflexivity.
    + rewrite Sk by (left; reflexivity). rewrite (below_props PT D property_header _ _ QD ltac:(left; reflexivity) PR). rewrite str_eqb_refl.
      assert (Z : table_below property_header ([[]] ++ dl ++ [[]; lit "### Columns"; []; column_header; lit " --- | --- | --- "] ++ rows ++ post) = []).
      { apply below_none. rewrite !Forall_app. assert (Qs : forall l, quiet_line l -> l <> property_header) by (intros l (_ & X & _); exact X). split; [repeat constructor; discriminate|]. split; [apply (Forall_impl _) with (2 := Qd); exact Qs|]. split; [repeat constructor; discriminate|]. split; [|destruct Hpost; subst; repeat constructor; discriminate].
        clear -R. induction R as [|? ? ? ? (_ & _ & _ & L) _ IH]; constructor; [apply cells_not_property; exact L|exact IH]. }
      destruct PR as [[-> ->]|(prows & -> & PR)]; [rewrite Z; constructor|]. cbn [tl]. clear -PR. induction PR as [|? ? ? ? (P & _) _ IH]; constructor; assumption.
    + rewrite Sk by (right; reflexivity). rewrite (below_props PT D column_header _ _ QD ltac:(right; reflexivity) PR). change (str_eqb column_header property_header) with false. cbv iota.
      assert (Z : [[]] ++ dl ++ [[]; lit "### Columns"; []; column_header; lit " --- | --- | --- "] ++ rows ++ post = ([[]] ++ dl ++ [[]; lit "### Columns"; []]) ++ column_header :: lit " --- | --- | --- " :: rows ++ post) by (rewrite <- !app_assoc; reflexivity). rewrite Z.
      rewrite below_skip.
      * rewrite below_found; [|clear -R; induction R as [|? ? ? ? (_ & _ & (x & r & -> & _) & _) _ IH]; constructor; [discriminate|exact IH]|exact Pp]. clear -R. induction R as [|? ? ? ? (P & _) _ IH]; constructor; assumption.
      * rewrite !Forall_app. split; [repeat constructor; discriminate|]. split; [|repeat constructor; discriminate]. apply (Forall_impl _) with (2 := Qd). intros l (_ & _ & X). exact X.
Qed.
End Blocks.
