(** The document, and when there is one. *)
From Verif Require Import PyStr Dec Dsv DsvProofs4 Json Names NamesSpec NamesProofs Column ColumnProofs Regex JsonText Frictionless FrictionlessProofs2 Expand DbWriteProofs6
  Markdown MarkdownSpec MarkdownProofs MarkdownProofs2 MarkdownProofs3 MarkdownProofs4.

Section Document.
Variable U : unicode.
Variable str_of : json -> pystr.
Variables space word : N -> bool.
Hypothesis space_bar : space 124 = false.
Hypothesis word_bar : word 124 = false.
Hypothesis none_text : one_line_text (str_of JNull).
Lemma lines_blocks bss : concat (map lines_of (concat bss)) = concat (map (fun bs => concat (map lines_of bs)) bss).
Proof. induction bss as [|bs bss IH]; [reflexivity|]. cbn [concat map]. rewrite map_app, concat_app, IH. reflexivity. Qed.
Lemma tables_lines g link ts bss : Forall2 (fun t bs => table_md U str_of space word g link t = Ok bs) ts bss -> Forall (tidy_table str_of space word) ts -> (forall d, mg_dialect g = Some d -> tidy_floats (JObj d)) ->
  exists pre secs, sections (concat (map lines_of (concat bss))) = (pre, secs) /\ (pre = [] \/ pre = [[]]) /\ Forall2 (section_says U str_of space word g link) ts (map read_section secs).
Proof.
  intros H T G. rewrite lines_blocks. induction H as [|t bs ts bss Ht _ IH]; [exists [], []; split; [reflexivity|]; split; [left; reflexivity|constructor]|].
  destruct (IH (Forall_inv_tail T)) as (pre & secs & E & P & F). destruct (table_lines U str_of space word space_bar word_bar none_text g link t bs Ht (Forall_inv T) G) as (h & body & L & St & B & S).
  exists [[]], ((h :: body ++ pre) :: secs). cbn [map concat]. unfold pystr in *. rewrite L. split; [|split; [right; reflexivity|]].
  - change (([] :: h :: body) ++ ?x) with ([[]] ++ h :: body ++ x). rewrite sections_skip by (repeat constructor). rewrite sections_start by exact St. rewrite sections_skip by exact B. rewrite E. reflexivity.
  - cbn [map]. constructor; [apply S; exact P|exact F].
Qed.
Theorem document_ok g link s : metadata2markdown U str_of space word g link = Ok s -> tidy_group str_of space word g -> document_says U str_of space word g link (read_document s).
Proof.
  intros H T. unfold metadata2markdown in H. cbn zeta in H. apply bind_inv in H. destruct H as (ps & Hp & H). apply bind_inv in H. destruct H as (bss & Hb & H). apply Ok_inj in H.
  set (title := py_str str_of match fget (mg_props g) "dc:title" with Some t => t | None => JStr (lit "Dataset") end) in H.
  assert (Et : title = match fget (mg_props g) "dc:title" with Some v => text_of str_of v | None => lit "Dataset" end) by (unfold title; destruct (fget (mg_props g) "dc:title"); reflexivity).
  assert (Tt : one_line_text title) by (rewrite Et; pose proof (tg_title _ _ _ _ T) as X; destruct (fget (mg_props g) "dc:title"); [exact X|vm_compute; intuition discriminate]).
  assert (TP : Forall (tidy_property str_of) (filter (fun kv => negb (str_eqb (fst kv) (lit "dc:title"))) (mg_props g))).
  { rewrite Forall_forall. intros kv I. apply filter_In in I. destruct I as [I N]. pose proof (tg_props _ _ _ _ T) as X. rewrite Forall_forall in X. destruct (X _ I) as [E|E]; [|exact E]. rewrite E, str_eqb_refl in N. discriminate. }
  assert (Nd : is_dict (filter (fun kv => negb (str_eqb (fst kv) (lit "dc:title"))) (mg_props g))).
  { pose proof (tg_dict _ _ _ _ T) as N. unfold is_dict. clear -N. induction (mg_props g) as [|[k v] d IH]; [constructor|]. cbn [map fst] in N. inversion N; subst. cbn [filter fst]. destruct (negb _); [|apply IH; assumption]. cbn [map fst]. constructor; [|apply IH; assumption].
    intros I. apply in_map_iff in I. destruct I as ([k' v'] & E & I). apply filter_In in I. cbn [fst] in E. subst k'. match goal with X : ~ In k _ |- _ => apply X; apply (in_map fst _ (k, v')); apply I end. }
  destruct (props_lines str_of none_text _ _ Hp TP Nd) as (D & PT & Lp & (QD & SD & SI) & PR).
  assert (El : listed shown_elsewhere (filter (fun kv : pystr * json => negb (str_eqb (fst kv) (lit "dc:title"))) (mg_props g)) = listed (lit "dc:title" :: shown_elsewhere) (mg_props g)).
  { unfold listed. rewrite filter_two. apply filter_ext. intros kv. change (str_mem (fst kv) (lit "dc:title" :: shown_elsewhere)) with (str_eqb (fst kv) (lit "dc:title") || str_mem (fst kv) shown_elsewhere). destruct (str_eqb (fst kv) (lit "dc:title")), (truthy (snd kv)); reflexivity. }
  rewrite El in PR. apply mapM_Forall2 in Hb. destruct (tables_lines g link _ _ Hb (tg_tables _ _ _ _ T) (tg_dialect _ _ _ _ T)) as (pre & secs & Es & Pp & Fs).
  set (note := match mg_fname g with Some f => if link then _ else [] | None => [] end) in H.
  assert (Ln : exists ls, concat (map lines_of note) = ls /\ Forall quiet_line ls /\ note_shown g link ls).
  { eexists. split; [reflexivity|]. unfold note, note_shown. pose proof (tg_fname _ _ _ _ T) as F. destruct (mg_fname g) as [f|]; [|split; [constructor|discriminate]]. destruct link; [|split; [constructor|discriminate]]. specialize (F f eq_refl). cbn [map concat]. rewrite app_nil_r.
    assert (X : lit "> [!NOTE]" ++ [LF] ++ lit "> Described by [" ++ f ++ lit "](" ++ f ++ lit ")." ++ [LF] = lit "> [!NOTE]" ++ LF :: (lit "> Described by [" ++ f ++ lit "](" ++ f ++ lit ").") ++ LF :: []) by (rewrite <- !app_assoc; reflexivity).
    rewrite X, !lines_app, (lines_one (lit "> Described by [" ++ _)).
    - split; [cbn [app]; constructor; [apply quiet_first; discriminate|]; constructor; [apply quiet_first; discriminate|]; constructor; [apply quiet_nil|constructor]|]. intros f0 E0 _. injection E0 as <-. right. left. reflexivity.
    - unfold one_line_text in *. rewrite !in_app_iff. intros [I|[I|[I|[I|I]]]]; try tauto; vm_compute in I; intuition discriminate. }
  destruct Ln as (nl & En & Qn & Sn).
  assert (L : lines_of s = ((lit "# " ++ title) :: [] :: nl ++ D ++ PT ++ [[]]) ++ concat (map lines_of (concat bss))).
  { rewrite <- H, lines_join by discriminate. rewrite !map_app, !concat_app. cbn [map concat]. rewrite Lp. assert (X : lit "# " ++ title ++ [LF] = (lit "# " ++ title) ++ LF :: []) by (rewrite <- app_assoc; reflexivity). rewrite X, lines_app, (lines_one (lit "# " ++ title)).
    - unfold pystr in *. rewrite En. cbn [app]. rewrite <- !app_assoc, ?app_nil_r. reflexivity.
    - unfold one_line_text in *. rewrite in_app_iff. intros [I|I]; [vm_compute in I; intuition discriminate|tauto]. }
  unfold read_document. rewrite L.
  assert (Sec : sections (((lit "# " ++ title) :: [] :: nl ++ D ++ PT ++ [[]]) ++ concat (map lines_of (concat bss))) = (((lit "# " ++ title) :: [] :: nl ++ D ++ PT ++ [[]]) ++ pre, secs)).
  { rewrite sections_skip; [rewrite Es; reflexivity|]. assert (Qs : forall l, quiet_line l -> startswith section_start l = false) by (intros l (X & _); exact X). constructor; [reflexivity|]. constructor; [reflexivity|]. rewrite !Forall_app. repeat split.
    - apply (Forall_impl _) with (2 := Qn). exact Qs.
    - apply (Forall_impl _) with (2 := QD). exact Qs.
    - destruct PR as [[_ ->]|(prows & -> & PR)]; [constructor|]. constructor; [reflexivity|]. constructor; [reflexivity|]. clear -PR. induction PR as [|? ? ? ? (_ & _ & _ & S & _) _ IH]; constructor; [apply quiet_hash; exact S|exact IH].
    - repeat constructor. }
  rewrite Sec. constructor; cbn [do_lines do_first do_props do_sections hd app].
  - rewrite Et. reflexivity.
  - intros f E0 Hl. right. right. apply in_or_app. left. apply in_or_app. left. exact (Sn f E0 Hl).
  - intros s0 E0 Ne. assert (X : fget (filter (fun kv : pystr * json => negb (str_eqb (fst kv) (lit "dc:title"))) (mg_props g)) "dc:description" = Some (JStr s0)) by (rewrite fget_filter by exact (tg_dict _ _ _ _ T); rewrite E0; reflexivity).
    destruct (SD s0 X Ne) as (b & af & ->). exists ((lit "# " ++ title) :: [] :: nl ++ b), (af ++ PT ++ [[]] ++ pre). cbn [app]. rewrite <- !app_assoc. reflexivity.
  - intros o E0 Ne. assert (X : fget (filter (fun kv : pystr * json => negb (str_eqb (fst kv) (lit "dc:title"))) (mg_props g)) "https://schema.org/image" = Some (JObj o)) by (rewrite fget_filter by exact (tg_dict _ _ _ _ T); rewrite E0; reflexivity).
    right. right. apply in_or_app. left. apply in_or_app. right. apply in_or_app. left. exact (SI o X Ne).
  - assert (X : (lit "# " ++ title) :: [] :: (nl ++ D ++ PT ++ [[]]) ++ pre = ((lit "# " ++ title) :: [] :: nl) ++ D ++ PT ++ [[]] ++ pre) by (cbn [app]; rewrite <- !app_assoc; reflexivity). unfold pystr in *. rewrite X. rewrite below_skip.
    + pose proof (below_props str_of PT D property_header _ pre QD (or_introl eq_refl) PR) as BP. unfold pystr in *. rewrite BP. rewrite str_eqb_refl. destruct PR as [[-> ->]|(prows & -> & PR)].
      * destruct Pp as [-> | ->]; constructor.
      * cbn [tl]. clear -PR. induction PR as [|? ? ? ? (P & _) _ IH]; constructor; assumption.
    + constructor; [discriminate|]. constructor; [discriminate|]. apply (Forall_impl _) with (2 := Qn). intros l (_ & X1 & _). exact X1.
  - exact Fs.
Qed.

(** *** When there is a document *)
Lemma bind_some {A B} (x : res A) (f : A -> res B) : (exists r, bind x f = Ok r) <-> exists a, x = Ok a /\ exists r, f a = Ok r.
Proof. split; [intros (r & H); apply bind_inv in H; destruct H as (a & -> & H); exists a; split; [reflexivity|exists r; exact H]|intros (a & -> & r & H); exists r; exact H]. Qed.
Lemma mapM_some {A B} (f : A -> res B) l : (exists r, mapM f l = Ok r) <-> forall x, In x l -> exists r, f x = Ok r.
Proof.
  induction l as [|x l IH]; cbn [mapM]; [split; [intros _ x []|intros _; eexists; reflexivity]|]. rewrite bind_some. split.
  - intros (a & Ha & r & H) y [<-|I]; [exists a; exact Ha|]. apply bind_inv in H. destruct H as (b & Hb & _). apply IH; [exists b; exact Hb|exact I].
  - intros H. destruct (H x (or_introl eq_refl)) as (a & Ha). exists a. split; [exact Ha|]. apply bind_some. destruct (proj2 IH (fun y I => H y (or_intror I))) as (b & Hb). exists b. split; [exact Hb|eexists; reflexivity].
Qed.
Lemma properties_some d : is_dict d -> (exists s, properties str_of d = Ok s) <-> renderable_props d.
Proof.
  intros N. unfold properties. cbn zeta. rewrite !fget_filter by exact N. cbn [snd]. split.
  - intros (s & H). apply bind_inv in H. destruct H as (desc & Hd & H). apply bind_inv in H. destruct H as (img & Hi & _). split.
    + intros v E Tr. rewrite E, Tr in Hd. destruct v as [| | | |x| |]; try discriminate Hd. exists x; reflexivity.
    + intros v E Tr. rewrite E, Tr in Hi. apply bind_inv in Hi. destruct Hi as (x & Hx & _). unfold image in Hx. destruct v as [| | | |y| |o]; try discriminate Hx; [left; exists y; reflexivity|right; exists o; reflexivity].
  - intros [D I]. apply bind_some. assert (Hd : exists a, (match (match fget d "dc:description" with Some v => if truthy v then Some v else None | None => None end) with None => Ok [] | Some (JStr s) => Ok [s ++ [LF]] | Some _ => Err TypeError end) = Ok a).
    { destruct (fget d "dc:description") as [v|]; [|eexists; reflexivity]. destruct (truthy v) eqn:Tr; [|eexists; reflexivity]. destruct (D v eq_refl Tr) as (x & ->). eexists; reflexivity. }
    destruct Hd as (a & Ha). exists a. split; [exact Ha|]. apply bind_some.
    assert (Hi : exists b, (match (match fget d "https://schema.org/image" with Some v => if truthy v then Some v else None | None => None end) with None => Ok [] | Some v => s <- image str_of v ;; Ok [s] end) = Ok b).
    { destruct (fget d "https://schema.org/image") as [v|]; [|eexists; reflexivity]. destruct (truthy v) eqn:Tr; [|eexists; reflexivity]. destruct (I v eq_refl Tr) as [(x & ->)|(x & ->)]; eexists; reflexivity. }
    destruct Hi as (b & Hb). exists b. split; [exact Hb|eexists; reflexivity].
Qed.
Lemma colrow_some t fks c : fks_of t = Ok fks ->
  (exists r, colrow U space word c fks (mt_pk t) = Ok r) <->
  (forall d, mc_datatype c = Some d -> truthy (md_format d) = true -> exists f, md_format d = JStr f) /\ description_text (mc_props c) /\
  (forall n k r, mc_name c = Some n -> refers_to (mt_fks t) n k -> mf_resource k = Some r -> has_slug U r).
Proof.
  intros Hf. unfold fks_of in Hf. apply bind_inv in Hf. destruct Hf as (l & Hl & Hf). apply Ok_inj in Hf. subst fks. pose proof (fks_spec _ _ Hl) as F. unfold colrow. rewrite bind_some.
  assert (Dt : (exists a, datatype_cell space word c = Ok a) <-> (forall d, mc_datatype c = Some d -> truthy (md_format d) = true -> exists f, md_format d = JStr f)).
  { unfold datatype_cell. rewrite bind_some. destruct (mc_datatype c) as [d|]; [|split; [discriminate|intros _; eexists; split; [reflexivity|eexists; reflexivity]]]. split.
    - intros (a & Ha & _) d' E Tr. injection E as <-. cbn zeta in Ha. apply bind_inv in Ha. destruct Ha as (x & Hx & _). rewrite Tr in Hx. destruct (md_format d) as [| | | |f| |]; try discriminate Hx. exists f; reflexivity.
    - intros H. cbn zeta. assert (X : exists x, (if truthy (md_format d) then match md_format d with JStr f => Ok (if fullmatch space word choices_regex f then (lit "`" ++ md_base d ++ lit "`") ++ lit "<br>Valid choices:<br>" ++ concat (map (fun w => lit " `" ++ w ++ lit "`") (split (lit "|") f)) else if str_eqb (md_base d) (lit "string") then (lit "`" ++ md_base d ++ lit "`") ++ lit "<br>Regex: `" ++ f ++ lit "`" else lit "`" ++ md_base d ++ lit "`") | _ => Err TypeError end else Ok (lit "`" ++ md_base d ++ lit "`")) = Ok x).
      { destruct (truthy (md_format d)) eqn:Tr; [|eexists; reflexivity]. destruct (H d eq_refl Tr) as (f & ->). eexists; reflexivity. }
      destruct X as (x & X). rewrite X. cbn [bind]. eexists. split; [reflexivity|eexists; reflexivity]. }
  assert (De : (exists a, desc_cell U c (rev (concat l)) (mt_pk t) = Ok a) <-> description_text (mc_props c) /\ (forall n k r, mc_name c = Some n -> refers_to (mt_fks t) n k -> mf_resource k = Some r -> has_slug U r)).
  { unfold desc_cell. rewrite bind_some. unfold description_text. assert (Uq : forall ks n k1 k2, refers_to ks n k1 -> refers_to ks n k2 -> k1 = k2).
    { clear. intros ks n k1 k2. induction ks as [|k ks IH]; [intros (l1 & l2 & E & _); destruct l1; discriminate|]. intros (a1 & b1 & E1 & C1 & F1) (a2 & b2 & E2 & C2 & F2). destruct a1 as [|x1 a1], a2 as [|x2 a2].
      - cbn [app] in E1, E2. congruence.
      - cbn [app] in E1, E2. injection E1 as _ E1. injection E2 as _ E2. rewrite <- E1, E2 in F1. exfalso. rewrite Forall_forall in F1. apply (F1 k2); [apply in_or_app; right; left; reflexivity|exact C2].
      - cbn [app] in E1, E2. injection E1 as _ E1. injection E2 as _ E2. rewrite <- E2, E1 in F2. exfalso. rewrite Forall_forall in F2. apply (F2 k1); [apply in_or_app; right; left; reflexivity|exact C1].
      - cbn [app] in E1, E2. injection E1 as _ E1. injection E2 as _ E2. apply IH; [exists a1, b1; auto|exists a2, b2; auto]. }
    split.
    - intros (desc & Hd & r & H). split.
      + intros v E. rewrite E in Hd. destruct v as [| | | |s| |]; try discriminate Hd. exists s; reflexivity.
      + intros n k r0 En R Er. cbn zeta in H. rewrite En in H. specialize (F n). destruct (dget str_eqb (rev (concat l)) n) as [[col tab]|].
        * destruct F as (k' & rest & R' & _ & Et). rewrite (Uq _ _ _ _ R R') in Er. assert (tab = r0) as -> by congruence. apply bind_inv in H. destruct H as (a & Ha & _). exists a. exact Ha.
        * exfalso. apply refers_in in R. destruct R as [R1 R2]. rewrite Forall_forall in F. exact (F _ R1 R2).
    - intros [D R]. assert (Hd : exists x, (match fget (mc_props c) "dc:description" with None => Ok [] | Some (JStr s) => Ok (replace [LF] (lit " ") s) | Some _ => Err AttributeError end) = Ok x).
      { destruct (fget (mc_props c) "dc:description") as [v|]; [|eexists; reflexivity]. destruct (D v eq_refl) as (s & ->). eexists; reflexivity. }
      destruct Hd as (desc & Hd). exists desc. split; [exact Hd|]. cbn zeta. destruct (mc_name c) as [n|]; [|eexists; reflexivity]. specialize (F n). destruct (dget str_eqb (rev (concat l)) n) as [[col tab]|]; [|eexists; reflexivity].
      destruct F as (k & rest & Rk & _ & Et). destruct (R n k tab eq_refl Rk Et) as (a & Ha). rewrite Ha. eexists; reflexivity. }
  rewrite <- Dt, <- De. split.
  - intros (dt & Hdt & r & H). split; [exists dt; exact Hdt|]. apply bind_inv in H. destruct H as (desc & Hd & _). exists desc. exact Hd.
  - intros [(dt & Hdt) (desc & Hd)]. exists dt. split; [exact Hdt|]. rewrite Hd. eexists; reflexivity.
Qed.
Lemma fks_some t : (exists l, fks_of t = Ok l) <-> forall k c, In k (mt_fks t) -> mf_cols k = [c] -> mf_refcols k <> [] /\ exists r, mf_resource k = Some r.
Proof.
  unfold fks_of. rewrite bind_some. transitivity (exists l, mapM fk_entry (mt_fks t) = Ok l).
  { split; [intros (l & H & _); exists l; exact H|intros (l & H); exists l; split; [exact H|eexists; reflexivity]]. }
  rewrite mapM_some. unfold fk_entry. split.
  - intros H k c I E. destruct (H k I) as (r & Hr). rewrite E in Hr. destruct (mf_refcols k); [discriminate|]. destruct (mf_resource k); [|discriminate]. split; [discriminate|eexists; reflexivity].
  - intros H k I. destruct (mf_cols k) as [|c [|c2 cs]] eqn:E; try (eexists; reflexivity). destruct (H k c I E) as (A & r & B). destruct (mf_refcols k); [congruence|]. rewrite B. eexists; reflexivity.
Qed.
Lemma table_some g link t : is_dict (mt_props t) -> (exists bs, table_md U str_of space word g link t = Ok bs) <-> renderable_table U g t.
Proof.
  intros N. unfold table_md. split.
  - intros (bs & H). apply bind_inv in H. destruct H as (fks & Hf & H). apply bind_inv in H. destruct H as (a & Ha & H). cbn zeta in H. apply bind_inv in H. destruct H as (ps & Hp & H). apply bind_inv in H. destruct H as (di & Hdi & H). apply bind_inv in H. destruct H as (rows & Hr & _).
    assert (R : forall c, In c (mt_cols t) -> exists r, colrow U space word c fks (mt_pk t) = Ok r) by (apply mapM_some; exists rows; exact Hr).
    assert (R' : forall c, In c (mt_cols t) -> _) by (intros c I; exact (proj1 (colrow_some t fks c Hf) (R c I))). cbv beta in R'.
    constructor.
    + exists a; exact Ha.
    + apply properties_some; [exact N|exists ps; exact Hp].
    + destruct (mt_dialect t); [left; discriminate|]. destruct (mg_dialect g); [right; discriminate|discriminate].
    + apply fks_some. exists fks; exact Hf.
    + intros c n k r I. destruct (R' c I) as (_ & _ & X). apply X.
    + intros c d I. destruct (R' c I) as (X & _). apply X.
    + intros c I. destruct (R' c I) as (_ & X & _). exact X.
  - intros [(a & Ha) P D F R Fo De]. destruct (proj2 (fks_some t) F) as (fks & Hf). rewrite Hf. cbn [bind]. rewrite Ha. cbn [bind]. destruct (proj2 (properties_some _ N) P) as (ps & Hp). rewrite Hp. cbn [bind].
    assert (Hdi : exists di, (match mt_dialect t with Some d => Ok d | None => match mg_dialect g with Some d => Ok d | None => Err AttributeError end end) = Ok di).
    { destruct (mt_dialect t); [eexists; reflexivity|]. destruct (mg_dialect g); [eexists; reflexivity|]. destruct D; congruence. }
    destruct Hdi as (di & Hdi). rewrite Hdi. cbn [bind].
    assert (Hr : exists rows, mapM (fun c => colrow U space word c fks (mt_pk t)) (mt_cols t) = Ok rows).
    { apply mapM_some. intros c I. apply (colrow_some t fks c Hf). split; [intros d; exact (Fo c d I)|]. split; [exact (De c I)|]. intros n k r. exact (R c n k r I). }
    destruct Hr as (rows & Hr). rewrite Hr. eexists; reflexivity.
Qed.
Theorem renders g link : is_dict (mg_props g) -> Forall (fun t => is_dict (mt_props t)) (mg_tables g) ->
  (exists s, metadata2markdown U str_of space word g link = Ok s) <-> renderable U g.
Proof.
  intros N Nt. unfold metadata2markdown, renderable. cbn zeta. rewrite bind_some.
  set (ps := filter (fun kv : pystr * json => negb (str_eqb (fst kv) (lit "dc:title"))) (mg_props g)).
  assert (Nd : is_dict ps).
  { unfold is_dict, ps. clear -N. unfold is_dict in N. induction (mg_props g) as [|[k v] d IH]; [constructor|]. cbn [map fst] in N. inversion N; subst. cbn [filter fst]. destruct (negb _); [|apply IH; assumption]. cbn [map fst]. constructor; [|apply IH; assumption].
    intros I. apply in_map_iff in I. destruct I as ([k' v'] & E & I). apply filter_In in I. cbn [fst] in E. subst k'. match goal with X : ~ In k _ |- _ => apply X; apply (in_map fst _ (k, v')); apply I end. }
  assert (P : (exists s, properties str_of ps = Ok s) <-> renderable_props (mg_props g)).
  { rewrite (properties_some ps Nd). assert (X : forall k, str_eqb (lit k) (lit "dc:title") = false -> fget ps k = fget (mg_props g) k).
    { intros k E. unfold ps. rewrite fget_filter by exact N. cbn [fst]. rewrite E. destruct (fget (mg_props g) k); reflexivity. }
    split; intros [A B]; constructor; rewrite ?X by reflexivity; rewrite ?X in A, B by reflexivity; assumption. }
  rewrite <- P. split.
  - intros (s & Hs & r & H). split; [exists s; exact Hs|]. apply bind_inv in H. destruct H as (bss & Hb & _). rewrite Forall_forall. rewrite Forall_forall in Nt. intros t I. apply (table_some g link t (Nt t I)). apply (proj1 (mapM_some (table_md U str_of space word g link) (mg_tables g))); [exists bss; exact Hb|exact I].
  - intros [(s & Hs) F]. exists s. split; [exact Hs|]. apply bind_some. assert (Hb : exists bss, mapM (table_md U str_of space word g link) (mg_tables g) = Ok bss).
    { apply mapM_some. intros t I. rewrite Forall_forall in F, Nt. apply (table_some g link t (Nt t I)). exact (F t I). }
    destruct Hb as (bss & Hb). exists bss. split; [exact Hb|eexists; reflexivity].
Qed.
End Document.
