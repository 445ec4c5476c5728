(** C71: keys of tables that agree on the columns of keys. *)
From Verif Require Import PyStr PyCsv Dsv DsvSpec DsvProofs DsvProofs2 DsvProofs4 NatLang Column ColumnProofs Schema Table TableSpec TableProofs TableProofs2 TableProofs3 TableProofs4 TableProofs5 TableProofs6 QuietSpec QuietProofs QuietProofs2 Files FilesSpec Group GroupSpec GroupProofs4 StoredSpec StoredProofs1.
From Coq Require Import Lia.
Section T.
Context {V : Type} (veq : V -> V -> bool).
Notation gtable := (@gtable V).
Definition agree_on (cols : list (tcol V)) (d d' : dict V) : Prop := forall c, In c cols -> tc_virtual c = false -> dget str_eqb d (tc_header c) = dget str_eqb d' (tc_header c).
Record alike (t t' : gtable) : Prop := {
  al_name : g_name t' = g_name t; al_cols : g_cols t' = g_cols t; al_pk : g_pk t' = g_pk t; al_fks : g_fkeys t' = g_fkeys t;
  al_end : forall log, io_end (g_iter t log) = None; al_end' : forall log, io_end (g_iter t' log) = None;
  al_rows : forall log, Forall2 (fun x y => agree_on (g_cols t) (snd x) (snd y)) (rows_of log t) (rows_of log t') }.
Lemma F2_flip {A B} (P : A -> B -> Prop) l l' : Forall2 P l l' -> Forall2 (fun y x => P x y) l' l.
Proof. induction 1; constructor; auto. Qed.
Lemma F2_mono {A B} (P Q : A -> B -> Prop) l l' : (forall x y, P x y -> Q x y) -> Forall2 P l l' -> Forall2 Q l l'.
Proof. induction 2; constructor; auto. Qed.
Lemma F2_r {A B} (P : A -> B -> Prop) l l' y : Forall2 P l l' -> In y l' -> exists x, In x l /\ P x y.
Proof. induction 1 as [|a b l l' H _ IH]; intros []; [subst; exists a; cbn; auto|]. destruct (IH H0) as (x & X & Y). exists x. cbn. auto. Qed.
Lemma F2_nth {A B} (P : A -> B -> Prop) l l' i y : Forall2 P l l' -> nth_error l' i = Some y -> exists x, nth_error l i = Some x /\ P x y.
Proof. intros H. revert i. induction H as [|a b l l' H _ IH]; intros [|i] E; try discriminate E; [injection E as <-; exists a; auto|exact (IH i E)]. Qed.
Lemma alike_sym t t' : alike t t' -> alike t' t.
Proof. intros [A B C D E F G]. split; auto. intros log. apply F2_flip in G || specialize (G log). apply F2_flip in G. revert G. apply F2_mono. intros x y H c. rewrite B. intros. symmetry. auto. Qed.
Lemma keys_alike t d d' ks vals : names_columns t ks -> agree_on (g_cols t) d d' -> has_keys ks d vals -> has_keys ks d' vals.
Proof.
  intros N A H. unfold has_keys in *. induction H as [|k v ks vals Hk _ IH]; constructor.
  - destruct (N k (or_introl eq_refl)) as (c & C1 & C2 & <-). rewrite <- (A c C1 C2). exact Hk.
  - apply IH. intros k' H'. apply N. right. exact H'.
Qed.
Definition kc (ts : list gtable) : Prop :=
  (forall t ks, In t ts -> g_pk t = Some ks -> names_columns t ks) /\ (forall t fk, In t ts -> In fk (g_fkeys t) -> names_columns t (fk_cols fk)) /\
  (forall child fk target, refers_to ts child fk target -> names_columns target (fk_refcols fk)).
Lemma names_alike t t' ks : alike t t' -> names_columns t ks -> names_columns t' ks.
Proof. intros A N k H. rewrite (al_cols _ _ A). exact (N k H). Qed.
Lemma last_alike ts ts' r t' : Forall2 alike ts ts' -> last_named ts' r t' -> exists t, last_named ts r t /\ alike t t'.
Proof.
  intros F (pre' & post' & -> & N & L). apply Forall2_app_inv_r in F. destruct F as (pre & q & _ & F & ->). inversion F as [|t ? post ? A F']; subst. exists t. split; [|exact A].
  exists pre, post. split; [reflexivity|]. split; [rewrite (al_name _ _ A); reflexivity|]. intros u Hu. apply F2_flip in F'. destruct (F2_r _ _ _ u F' Hu) as (u' & Hu' & Au). rewrite <- (al_name _ _ Au). exact (L u' Hu').
Qed.
Lemma refers_alike ts ts' child' fk target' : Forall2 alike ts ts' -> refers_to ts' child' fk target' -> exists child target, refers_to ts child fk target /\ alike child child' /\ alike target target'.
Proof.
  intros F (I & J & K & r & E & L). destruct (F2_r _ _ _ _ F I) as (child & Ic & Ac). destruct (last_alike _ _ _ _ F L) as (target & Lt & At). exists child, target. split; [|auto].
  split; [exact Ic|]. split; [rewrite <- (al_fks _ _ Ac); exact J|]. split; [exact K|]. exists r. auto.
Qed.
Lemma all_flip ts ts' : Forall2 alike ts ts' -> Forall2 alike ts' ts.
Proof. intros F. apply F2_flip in F. revert F. apply F2_mono. intros x y. apply alike_sym. Qed.
Lemma kc_alike ts ts' : Forall2 alike ts ts' -> kc ts -> kc ts'.
Proof.
  intros F (A & B & C). split; [|split].
  - intros t' ks I E. destruct (F2_r _ _ _ _ F I) as (t & It & At). apply (names_alike t _ _ At). apply (A t ks It). rewrite <- (al_pk _ _ At). exact E.
  - intros t' fk I E. destruct (F2_r _ _ _ _ F I) as (t & It & At). apply (names_alike t _ _ At). apply (B t fk It). rewrite <- (al_fks _ _ At). exact E.
  - intros child fk target H. destruct (refers_alike _ _ _ _ _ F H) as (c & t & H' & _ & At). exact (names_alike t _ _ At (C c fk t H')).
Qed.
(** rows *)
Lemma row_alike t t' log line d' : alike t t' -> In (line, d') (rows_of log t') -> exists line0 d, In (line0, d) (rows_of log t) /\ agree_on (g_cols t) d d'.
Proof. intros A I. destruct (F2_r _ _ _ _ (al_rows _ _ A log) I) as ([l d] & X & Y). exists l, d. auto. Qed.
Lemma found_alike t t' log fk vals : alike t t' -> names_columns t (fk_refcols fk) -> found veq log t fk vals -> found veq log t' fk vals.
Proof.
  intros A N (line & d & vals' & I & H & E). destruct (row_alike t' t log line d (alike_sym _ _ A) I) as (l & d' & I' & G). exists l, d', vals'. split; [exact I'|]. split; [|exact E].
  apply (keys_alike t d d'); [exact N| |exact H]. intros c C1 C2. symmetry. apply G; [rewrite (al_cols _ _ A)|]; assumption.
Qed.
Lemma pk_alike t t' : alike t t' -> (forall ks, g_pk t = Some ks -> names_columns t ks) -> primary_key_unique veq t -> primary_key_unique veq t'.
Proof.
  intros A N. unfold primary_key_unique. rewrite (al_pk _ _ A). destruct (g_pk t) as [[|k ks]|] eqn:E; try (intros; exact I). specialize (N _ eq_refl). intros (keys & F & H1 & H2 & _). exists keys. split; [|split; [exact H1|split; [exact H2|exact (al_end' _ _ A true)]]].
  pose proof (al_rows _ _ A true) as G. clear H1 H2. revert keys F. induction G as [|x y l l' Hxy _ IH]; intros keys F; inversion F as [|? key ? keys' Hk F']; subst; constructor; [exact (keys_alike t _ _ _ _ N Hxy Hk)|exact (IH _ F')].
Qed.
Lemma integrity_alike ts ts' : Forall2 alike ts ts' -> kc ts -> integrity_holds veq true false ts -> integrity_holds veq true false ts'.
Proof.
  intros F (N1 & N2 & N3) ((M1 & M2) & _ & U & S & Q). specialize (Q eq_refl). destruct Q as (_ & Z & Y). split; [|split; [|split; [|split; [|intros _; split; [|split]]]]].
  - split.
    + intros child' fk I J K. destruct (F2_r _ _ _ _ F I) as (child & Ic & Ac). pose proof J as J'. rewrite (al_fks _ _ Ac) in J'. destruct (M1 child fk Ic J' K) as (target & _ & _ & _ & r & Er & L).
      destruct (last_alike ts' ts r target (all_flip _ _ F) L) as (target' & L' & _). exists target'. split; [exact I|]. split; [exact J|]. split; [exact K|]. exists r. auto.
    + intros child' fk target' H. destruct (refers_alike _ _ _ _ _ F H) as (child & target & H' & Ac & At). specialize (M2 child fk target H'). revert M2. apply F2_mono. intros k r X. unfold column_pair in *. rewrite (al_cols _ _ Ac), (al_cols _ _ At). exact X.
  - intros child' fk target' H. destruct (refers_alike _ _ _ _ _ F H) as (child & target & H' & Ac & At). split; [exact (al_end' _ _ Ac false)|exact (al_end' _ _ At false)].
  - intros child' fk target' H. destruct (refers_alike _ _ _ _ _ F H) as (child & target & H' & Ac & At). destruct (U child fk target H') as (U1 & U2 & U3). split; [exact U1|]. split.
    + intros line d' I. destruct (row_alike _ _ _ _ _ At I) as (l & d & I' & G). destruct (U2 l d I') as (vals & W1 & W2). exists vals. split; [exact (keys_alike target _ _ _ _ (N3 _ _ _ H') G W1)|exact W2].
    + intros line d' I. destruct (row_alike _ _ _ _ _ Ac I) as (l & d & I' & G). destruct (U3 l d I') as (vals & W1 & W2). exists vals. split; [|exact W2]. destruct H' as (Ic & If & _). exact (keys_alike child _ _ _ _ (N2 _ _ Ic If) G W1).
  - intros child' fk target' H line d' I. destruct (refers_alike _ _ _ _ _ F H) as (child & target & H' & Ac & At). destruct (row_alike _ _ _ _ _ Ac I) as (l & d & I' & G). destruct (S child fk target H' l d I') as (vals & W1 & W2).
    pose proof (N3 _ _ _ H') as Nt. exists vals. split; [destruct H' as (Ic & If & _); exact (keys_alike child _ _ _ _ (N2 _ _ Ic If) G W1)|].
    destruct W2 as [W2|[(lst & E & W2)|W2]]; [left; exact W2|right; left; exists lst; split; [exact E|intros o Ho; exact (found_alike target _ _ _ _ At Nt (W2 o Ho))]|right; right; exact (found_alike target _ _ _ _ At Nt W2)].
  - intros t' I _. destruct (F2_r _ _ _ _ F I) as (t & _ & At). exact (al_end' _ _ At false).
  - intros t' fk line d' I J K (c & Hc & Hn). destruct (F2_r _ _ _ _ F I) as (t & It & At). rewrite (al_fks _ _ At) in J. destruct (row_alike _ _ _ _ _ At K) as (l & d & I' & G). apply (Z t fk l d It J I'). exists c. split; [exact Hc|].
    destruct (N2 t fk It J c Hc) as (c0 & C1 & C2 & <-). rewrite (G c0 C1 C2). exact Hn.
  - intros child' fk target' H i j x y vx vy Hi Hj Kx Ky E. destruct (refers_alike _ _ _ _ _ F H) as (child & target & H' & Ac & At). pose proof (N3 _ _ _ H') as Nt.
    destruct (F2_nth _ _ _ i x (al_rows _ _ At false) Hi) as (x0 & Hx & Gx). destruct (F2_nth _ _ _ j y (al_rows _ _ At false) Hj) as (y0 & Hy & Gy).
    apply (Y child fk target H' i j x0 y0 vx vy Hx Hy); [| |exact E]; [apply (keys_alike target (snd x))|apply (keys_alike target (snd y))]; try assumption; intros c C1 C2; symmetry; auto.
Qed.
End T.

Section W.
Context {V : Type} (veq : V -> V -> bool) (Hveq : equivalence veq) (sc : scalars V) (expand : pystr -> dict V -> res pystr) (Hx : expands expand) (pv : pyver) (lim : N) (strict : bool) (before : option pystr).
Lemma one_table (t : data) : presentable sc pv lim t -> exists file, writes sc pv lim strict before t file /\
  let g := on_disk sc lim expand (t, file) in alike (in_memory t) g /\ reads_quietly g /\ forall log, io_warns (g_iter g log) = [].
Proof.
  intros P. destruct (file_written sc pv lim strict before t P) as (file & R & rows & W & Hr & E & F). exists file. split; [exact W|]. cbn zeta.
  destruct P as [St Hd Sep Qu]. pose proof St as ((dl & q & term & Hsane & Hnl) & Hdq & Hskip & Hke & _ & Hreg & Hdist & Hvr & Hcomp & Hsurv & Hok0).
  assert (Hok : forall rows, Forall2 (row_of sc (da_cols t)) (map IDict (da_items t)) rows -> cells_within lim (texts (header_rows (da_dialect t) (da_cols t) ++ rows)) /\ bom_safe (da_dialect t) (header_rows (da_dialect t) (da_cols t) ++ rows)) by (intros r X; split; apply (Hok0 r X)). clear Hok0.
  assert (WR : forall log, io_end (iterdicts sc expand lim (da_dialect t) (da_lang t) true log (da_cols t) file) = None /\
    Forall2 (fun x y => agree_on (da_cols t) (snd x) (snd y)) (map (fun d => (0%nat, d)) (da_items t)) (io_rows (iterdicts sc expand lim (da_dialect t) (da_lang t) true log (da_cols t) file))).
  { intros log. destruct (write_read sc expand pv lim (da_dialect t) dl q term (da_lang t) strict log (da_cols t) before (da_items t) Hsane Hdq Hskip Hnl Hke Hreg Hdist Hvr Hx Hcomp Hsurv Hok) as (file' & W' & E1 & _ & G).
    unfold writes in W. rewrite W in W'. injection W' as <-. split; [exact E1|]. revert G. generalize (io_rows (iterdicts sc expand lim (da_dialect t) (da_lang t) true log (da_cols t) file)). generalize (da_items t).
    intros its rs G. apply F2_flip in G. induction G as [|x y its rs [H _] _ IH]; constructor; [intros c C1 C2; symmetry; exact (H c C1 C2)|exact IH]. }
  split; [split; try reflexivity; [exact (fun log => proj1 (WR log))|exact (fun log => proj2 (WR log))]|]. split.
  - apply (lax_iff sc expand (proj1 Hx) (da_cols t) Sep lim (da_dialect t) (da_lang t) file). exists R. split; [exact Hr|]. exact (content_ok sc (da_lang t) (da_dialect t) (da_cols t) R rows Hreg Hvr Hd E F).
  - intros log. exact (strict_still sc expand lim log (da_lang t) (da_dialect t) (da_cols t) file R rows Hreg Hvr Sep Hr E F).
Qed.
Lemma all_tables (ts : list data) : (forall t, In t ts -> presentable sc pv lim t) -> exists files, Forall2 (writes sc pv lim strict before) ts files /\
  let gs := map (on_disk sc lim expand) (combine ts files) in Forall2 alike (map in_memory ts) gs /\ forall g, In g gs -> reads_quietly g /\ forall log, io_warns (g_iter g log) = [].
Proof.
  induction ts as [|t ts IH]; intros P; [exists []; split; [constructor|split; [constructor|intros g []]]|]. destruct IH as (files & F & A & Q); [intros t' H; apply P; right; exact H|].
  destruct (one_table t (P t (or_introl eq_refl))) as (file & W & A1 & Q1 & Q2). exists (file :: files). split; [constructor; assumption|]. cbn zeta. cbn [combine map]. split; [constructor; assumption|].
  intros g [<-|H]; [auto|exact (Q g H)].
Qed.
Lemma F2_l {A B} (P : A -> B -> Prop) l l' x : Forall2 P l l' -> In x l -> exists y, In y l' /\ P x y.
Proof. intros F H. apply F2_flip in F. exact (F2_r _ _ _ x F H). Qed.
Lemma valid_alike loading (ts : list data) (gs : list (@gtable V)) : key_columns ts -> Forall2 alike (map in_memory ts) gs -> (forall g, In g gs -> reads_quietly g /\ forall log, io_warns (g_iter g log) = []) ->
  (is_valid veq loading gs = Ok true <-> loading = [] /\ keys_hold veq ts).
Proof.
  intros (K1 & K2 & K3) A Q.
  assert (K : kc (map in_memory ts)).
  { split; [|split; [|exact K3]].
    - intros g ks I E. apply in_map_iff in I. destruct I as (t & <- & I). exact (K1 t ks I E).
    - intros g fk I E. apply in_map_iff in I. destruct I as (t & <- & I). exact (K2 t fk I E). }
  rewrite (is_valid_iff veq Hveq). unfold keys_hold. split.
  - intros (L & B & C & _). split; [exact L|]. split; [|exact (integrity_alike veq gs _ (all_flip _ _ A) (kc_alike _ _ A K) C)].
    intros t I. apply (in_map in_memory) in I. destruct (F2_l _ _ _ _ A I) as (g & Ig & Ag). apply (pk_alike veq g); [exact (alike_sym _ _ Ag)|intros ks E; exact (proj1 (kc_alike _ _ A K) g ks Ig E)|exact (proj2 (B g Ig))].
  - intros (L & B & C). split; [exact L|]. split; [|split; [exact (integrity_alike veq _ gs A K C)|]].
    + intros g Ig. split; [exact (proj1 (Q g Ig))|]. destruct (F2_r _ _ _ _ A Ig) as (m & Im & Am). apply (pk_alike veq m g Am); [intros ks E; exact (proj1 K m ks Im E)|]. apply in_map_iff in Im. destruct Im as (t & <- & I). exact (B t I).
    + split; [intros t k ks I _; exact (proj2 (Q t I) true)|]. split; [intros t I _; exact (proj2 (Q t I) false)|].
      intros child fk target (_ & _ & _ & r & _ & pre & post & E & _). apply (proj2 (Q target ltac:(rewrite E; apply in_app_iff; right; left; reflexivity))).
Qed.
Theorem stored_valid loading (ts : list data) : (forall t, In t ts -> presentable sc pv lim t) -> key_columns ts ->
  exists files, Forall2 (writes sc pv lim strict before) ts files /\
    (is_valid veq loading (map (on_disk sc lim expand) (combine ts files)) = Ok true <-> loading = [] /\ keys_hold veq ts).
Proof.
  intros P K. destruct (all_tables ts P) as (files & F & A & Q). exists files. split; [exact F|]. exact (valid_alike loading ts _ K A Q).
Qed.
End W.
