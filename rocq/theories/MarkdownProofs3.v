(** Rows: the description of a column, a column, a property. *)
From Verif Require Import PyStr Dec Dsv DsvProofs4 Json Names NamesSpec NamesProofs Column ColumnProofs Regex Frictionless FrictionlessProofs2 Expand Props_Expand Markdown MarkdownSpec MarkdownProofs MarkdownProofs2.

Lemma slug_cell U rw lw s a : slug U rw lw s = Ok a -> cell_text a.
Proof.
  intros H. apply slug_chars in H. rewrite Forall_forall in H. unfold alnum, SPACE in H. split; intros I; apply H in I; unfold LF in I; lia.
Qed.
Lemma refers_none ks n : (exists k, refers_to ks n k) \/ Forall (fun k => mf_cols k <> [n]) ks.
Proof.
  induction ks as [|k ks IH]; [right; constructor|]. destruct IH as [(k' & l1 & l2 & -> & H)|F]; [left; exists k', (k :: l1), l2; split; [reflexivity|exact H]|].
  destruct (list_eq_dec str_eq_dec (mf_cols k) [n]) as [E|E]; [left; exists k, [], ks; split; [reflexivity|]; split; assumption|]. right. constructor; assumption.
Qed.
Lemma refers_in ks n k : refers_to ks n k -> In k ks /\ mf_cols k = [n].
Proof. intros (l1 & l2 & -> & H & _). split; [apply in_or_app; right; left; reflexivity|exact H]. Qed.
Lemma refers_cons ks n k k0 : refers_to ks n k -> refers_to (k0 :: ks) n k.
Proof. intros (l1 & l2 & -> & H). exists (k0 :: l1), l2. split; [reflexivity|exact H]. Qed.
Lemma fks_spec ks : forall l, mapM fk_entry ks = Ok l -> forall n,
  match dget str_eqb (rev (concat l)) n with
  | Some (rc, tab) => exists k rest, refers_to ks n k /\ mf_refcols k = rc :: rest /\ mf_resource k = Some tab
  | None => Forall (fun k => mf_cols k <> [n]) ks
  end.
Proof.
  induction ks as [|k ks IH]; intros l H n; cbn [mapM] in H; [apply Ok_inj in H; subst; constructor|].
  apply bind_inv in H. destruct H as (e & He & H). apply bind_inv in H. destruct H as (l' & Hl & H). apply Ok_inj in H. subst l. specialize (IH l' Hl n). cbn [concat]. rewrite rev_app_distr, dget_app.
  destruct (dget str_eqb (rev (concat l')) n) as [[rc tab]|].
  - destruct IH as (k' & rest & R & X). exists k', rest. split; [apply refers_cons; exact R|exact X].
  - unfold fk_entry in He. destruct (mf_cols k) as [|c [|c2 cs]] eqn:Ec; try (apply Ok_inj in He; subst e; cbn [rev dget]; constructor; [congruence|exact IH]).
    destruct (mf_refcols k) as [|rc rest] eqn:Er; [discriminate|]. destruct (mf_resource k) as [tab|] eqn:Et; [|discriminate]. apply Ok_inj in He. subst e. cbn [rev app dget]. destruct (str_eqb n c) eqn:E.
    + apply str_eqb_eq in E. subst c. exists k, rest. split; [|auto]. exists [], ks. split; [reflexivity|]. split; assumption.
    + constructor; [|exact IH]. rewrite Ec. intros X. injection X as ->. rewrite str_eqb_refl in E. discriminate.
Qed.

Section Rows.
Variable U : unicode.
Variable str_of : json -> pystr.
Variables space word : N -> bool.
Hypothesis space_bar : space 124 = false.
Hypothesis word_bar : word 124 = false.
Lemma spaced_replace s : replace [LF] (lit " ") s = spaced s.
Proof. rewrite replace_one. unfold replace1, spaced. induction s as [|c s IH]; [reflexivity|]. cbn [flat_map map]. rewrite IH. destruct (c =? LF); reflexivity. Qed.
Lemma desc_ok t c fks x : fks_of t = Ok fks -> desc_cell U c fks (mt_pk t) = Ok x ->
  exists d k r, description_says c d /\ key_says t c k /\ reference_says U t c r /\ x = join (lit "<br>") (parts [d; k; r]).
Proof.
  intros Hf H. unfold fks_of in Hf. apply bind_inv in Hf. destruct Hf as (l & Hl & Hf). apply Ok_inj in Hf. subst fks. pose proof (fks_spec _ _ Hl) as F. unfold desc_cell in H. apply bind_inv in H. destruct H as (desc & Hd & H). cbn zeta in H.
  set (d := match desc with [] => None | _ => Some desc end).
  assert (D : description_says c d).
  { unfold description_says, d. destruct (fget (mc_props c) "dc:description") as [[| | | |s| |]|]; try discriminate Hd; [|apply Ok_inj in Hd; subst; reflexivity]. apply Ok_inj in Hd. rewrite spaced_replace in Hd. subst desc. destruct s; reflexivity. }
  set (isk := match mc_name c with Some n => str_mem n (mt_pk t) | None => false end) in *. set (k := if isk then Some (lit "Primary key") else None).
  assert (K : key_says t c k).
  { unfold key_says, k, isk. destruct (mc_name c) as [n|]; [|right; split; [discriminate|reflexivity]]. destruct (str_mem n (mt_pk t)) eqn:E; [left; exists n; split; [reflexivity|]; split; [apply str_mem_In; exact E|reflexivity]|].
    right. split; [|reflexivity]. intros m Em. injection Em as <-. apply str_mem_false. exact E. }
  exists d, k. set (desc2 := if isk then match desc with [] => [] | _ :: _ => desc ++ lit "<br>" end ++ lit "Primary key" else desc) in H.
  assert (E2 : desc2 = join (lit "<br>") (parts [d; k])) by (unfold desc2, d, k; destruct desc, isk; try reflexivity; unfold parts; cbn [map concat app]; change (join (lit "<br>") [?a; ?b]) with (a ++ lit "<br>" ++ b); cbn [app]; f_equal; rewrite <- !app_assoc; reflexivity).
  assert (E3 : forall r, join (lit "<br>") (parts [d; k; Some r]) = (match desc2 with [] => [] | _ => desc2 ++ lit "<br>" end) ++ r).
  { intros r. unfold desc2, d, k. destruct desc as [|c0 desc], isk; unfold parts; cbn [map concat app]; try reflexivity.
    - change (join (lit "<br>") [?a; ?b; ?e]) with (a ++ lit "<br>" ++ b ++ lit "<br>" ++ e). cbn [app]. f_equal. rewrite <- !app_assoc. reflexivity.
    - change (join (lit "<br>") [?a; ?b]) with (a ++ lit "<br>" ++ b). cbn [app]. f_equal. rewrite <- !app_assoc. reflexivity. }
  destruct (mc_name c) as [n|] eqn:En.
  - specialize (F n). destruct (dget str_eqb (rev (concat l)) n) as [[col tab]|].
    + destruct F as (fk & rest & R & C & T). apply bind_inv in H. destruct H as (a & Ha & H). apply Ok_inj in H. exists (Some (link_to tab col a)). split; [exact D|]. split; [exact K|]. split.
      * left. exists n, fk, tab, col, rest, a. repeat (split; [first [assumption|reflexivity]|]). reflexivity.
      * rewrite E3. rewrite <- H. unfold link_to. reflexivity.
    + exists None. split; [exact D|]. split; [exact K|]. split; [|apply Ok_inj in H; rewrite <- H, E2; unfold parts; cbn [map concat]; reflexivity].
      right. split; [|reflexivity]. intros n' fk X R. assert (n' = n) by congruence. subst n'. apply refers_in in R. destruct R as [R1 R2]. rewrite Forall_forall in F. exact (F _ R1 R2).
  - exists None. split; [exact D|]. split; [exact K|]. split; [|apply Ok_inj in H; rewrite <- H, E2; unfold parts; cbn [map concat]; reflexivity].
    right. split; [|reflexivity]. intros n fk X. congruence.
Qed.
Lemma parts_cell l : (forall o s, In o l -> o = Some s -> cell_text s) -> Forall cell_text (parts l).
Proof.
  intros H. unfold parts. apply Forall_concat. rewrite Forall_map, Forall_forall. intros o I. destruct o as [s|]; [|constructor]. constructor; [exact (H _ s I eq_refl)|constructor].
Qed.
Lemma desc_tidy t c d k r : tidy_table str_of space word t -> tidy_column space word c -> description_says c d -> key_says t c k -> reference_says U t c r -> cell_text (join (lit "<br>") (parts [d; k; r])).
Proof.
  intros T C D K R. apply cell_join; [celllit|]. apply parts_cell. intros o s [<-|[<-|[<-|[]]]] E.
  - unfold description_says in D. pose proof (tc_desc _ _ _ C) as X. destruct (fget (mc_props c) "dc:description") as [[| | | |s0| |]|]; try congruence. specialize (X s0 eq_refl). destruct s0 as [|x s0]; [congruence|]. assert (s = spaced (x :: s0)) as -> by congruence.
    split; unfold spaced; intros I; apply in_map_iff in I; destruct I as (y & E1 & I); destruct (y =? LF) eqn:Ey; try discriminate E1; [apply N.eqb_neq in Ey; congruence|subst y; exact (X I)].
  - destruct K as [(n & _ & _ & ->)|[_ ->]]; [|discriminate]. injection E as <-. celllit.
  - destruct R as [(n & fk & tab & col & cols & a & _ & R & Et & Ec & Sl & ->)|[_ ->]]; [|discriminate]. injection E as <-. apply refers_in in R. destruct R as [R _]. pose proof (tt_fks _ _ _ _ T) as F. rewrite Forall_forall in F. specialize (F _ R). destruct F as [F1 F2]. specialize (F2 _ Et). rewrite Ec in F1. inversion F1; subst.
    unfold link_to. repeat (apply cell_app; split); try assumption; try celllit. exact (slug_cell _ _ _ _ _ Sl).
Qed.
Lemma name_tidy c : tidy_column space word c -> cell_text (name_says c).
Proof.
  intros C. unfold name_says. assert (N : cell_text (match mc_name c with Some n => n | None => lit "None" end)) by (pose proof (tc_name _ _ _ C) as X; destruct (mc_name c); [exact X|celllit]).
  pose proof (tc_url _ _ _ C) as X. destruct (mc_url c); [|apply quoted_cell; exact N]. repeat (apply cell_app; split); try assumption; celllit.
Qed.
(** a row of the columns *)
Lemma colrow_ok t c fks row : tidy_table str_of space word t -> tidy_column space word c -> fks_of t = Ok fks -> colrow U space word c fks (mt_pk t) = Ok row ->
  column_says U space word t c (split (lit "|") row) /\ ~ In LF row /\ (exists x r, row = x :: r /\ (x = 91 \/ x = 96)) /\ length (split (lit "|") row) = 3%nat.
Proof.
  intros T C Hf H. unfold colrow in H. apply bind_inv in H. destruct H as (dt & Hd & H). apply bind_inv in H. destruct H as (desc & Hc & H). cbn zeta in H. apply Ok_inj in H.
  apply datatype_ok in Hd; [|exact space_bar|exact word_bar]. pose proof (datatype_tidy space word _ _ C Hd) as Td. destruct (desc_ok t c fks desc Hf Hc) as (d & k & r & D & K & R & ->). pose proof (desc_tidy t c d k r T C D K R) as Tx. pose proof (name_tidy c C) as Tn.
  assert (E : row = join (lit " | ") [name_says c; dt; join (lit "<br>") (parts [d; k; r])]) by (rewrite <- H; reflexivity). rewrite E. rewrite row3_split by assumption. split; [exists dt, d, k, r; auto|]. split.
  - change (join (lit " | ") [?a; ?b; ?e]) with (a ++ lit " | " ++ b ++ lit " | " ++ e). destruct Tn as [Tn _], Td as [Td _], Tx as [Tx _]. rewrite !in_app_iff. intros [I|[I|[I|[I|I]]]]; try tauto; vm_compute in I; intuition discriminate.
  - split; [|reflexivity]. unfold name_says. destruct (mc_url c).
    + eexists 91, _. split; [reflexivity|left; reflexivity].
    + eexists 96, _. split; [reflexivity|right; reflexivity].
Qed.
(** a row of the properties *)
Lemma proprow_ok kv : startswith (lit "#") (fst kv) = false -> cell_text (fst kv) -> tidy_value str_of (snd kv) ->
  let row := qname2link (fst kv) false ++ lit " | " ++ htmlify str_of (snd kv) in
  property_says str_of kv (split (lit "|") row) /\ ~ In LF row /\ row <> [] /\ startswith (lit "#") row = false /\ length (split (lit "|") row) = 2%nat.
Proof.
  intros S C T row. pose proof (link_cell (fst kv) false C) as Tk. pose proof (htmlify_cell str_of (snd kv) T) as Tv. assert (E : split (lit "|") row = row2 (qname2link (fst kv) false) (htmlify str_of (snd kv))) by (apply row2_split; assumption). rewrite E. split; [|split; [|split; [|split; [|reflexivity]]]].
  - exists (qname2link (fst kv) false), (htmlify str_of (snd kv)). split; [apply key_says_ok|]. split; [apply htmlify_shown|reflexivity].
  - unfold row. destruct Tk as [Tk _], Tv as [Tv _]. rewrite !in_app_iff. intros [I|[I|I]]; try tauto. vm_compute in I; intuition discriminate.
  - unfold row. destruct (qname2link (fst kv) false); discriminate.
  - unfold row, qname2link. destruct (qname2url (fst kv)); [reflexivity|]. destruct (fst kv) as [|x q]; [reflexivity|]. cbn [app]. exact S.
Qed.
End Rows.
