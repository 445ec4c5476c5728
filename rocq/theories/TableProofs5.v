(** Proofs for C31, C32 and C27. *)
From Verif Require Import PyStr PyCsv Dsv DsvSpec DsvProofs DsvProofs2 NatLang Column ColumnProofs ColumnProofs2 Schema Table TableSpec TableProofs TableProofs2 TableProofs3 TableProofs4.

Section W.
Context {V : Type} (sc : scalars V) (pv : pyver) (lim : N) (d : dialect).

Lemma mapM_exact {A B} (f : A -> res B) l bs : mapM f l = Ok bs <-> Forall2 (fun a b => f a = Ok b) l bs.
Proof. apply mapM_Ok_iff. Qed.
Lemma Forall2_nth {A B} (R : A -> B -> Prop) l l' : Forall2 R l l' <->
  length l' = length l /\ forall i a, nth_error l i = Some a -> exists b, nth_error l' i = Some b /\ R a b.
Proof.
  split.
  - intros H. split; [symmetry; eapply Forall2_length; exact H|]. induction H as [|a b l l' H1 H IH]; intros i x Hx; [destruct i; discriminate|].
    destruct i; cbn in *; [injection Hx as <-; eauto|apply IH; exact Hx].
  - revert l'. induction l as [|a l IH]; intros [|b l'] [H1 H2]; cbn in H1; try discriminate; constructor.
    + destruct (H2 0%nat a eq_refl) as (b' & X & Y). cbn in X. injection X as <-. exact Y.
    + apply IH. split; [congruence|]. intros i x Hx. exact (H2 (S i) x Hx).
Qed.
Lemma item_row_iff (cols : list (tcol V)) it cells : item_row sc cols it = Ok cells <-> row_of sc cols it cells.
Proof.
  unfold row_of. destruct it as [kvs|vs]; cbn [item_row item_value].
  - rewrite mapM_exact, Forall2_nth. split; intros [H1 H2]; (split; [exact H1|]); intros i c Hc; destruct (H2 i c Hc) as (x & X).
    + destruct X as [X Y]. eexists; exists x. split; [reflexivity|]. split; [exact Y|exact X].
    + destruct X as (y & -> & X & Y). exists y. split; [exact Y|exact X].
  - rewrite mapM_exact, Forall2_nth, combine_length, seq_length, Nat.min_id. split; intros [H1 H2]; (split; [exact H1|]); intros i.
    + intros c Hc. assert (Hl : (i < length (regular cols))%nat) by (apply nth_error_Some; congruence).
      destruct (H2 i (i, c)) as (x & X & Y). { apply nth_error_combine; [rewrite nth_error_seq; [reflexivity|exact Hl]|exact Hc]. }
      cbn in Y. destruct (nth_error vs i) as [v|]; [|discriminate]. exists v, x. auto.
    + intros [j c] Hc. apply nth_error_combine_inv in Hc. destruct Hc as [Hj Hc].
      assert (Hl : (i < length (regular cols))%nat) by (apply nth_error_Some; congruence).
      rewrite nth_error_seq in Hj by exact Hl. injection Hj as <-. destruct (H2 i c Hc) as (v & x & X & Y & Z). exists x. split; [exact Z|].
      cbn. rewrite X. exact Y.
Qed.
Lemma unknown_iff (cols : list (tcol V)) it : unknown_keys cols it = true <-> unknown_field cols it.
Proof.
  destruct it as [kvs|vs]; cbn; [|split; [discriminate|contradiction]].
  rewrite existsb_exists. split.
  - intros ([k v] & Hin & H). exists k, v. split; [exact Hin|]. intros c Hc Hv E. apply negb_true_iff, str_mem_false in H. apply H. cbn. subst k.
    apply in_map. apply filter_In. rewrite Hv. auto.
  - intros (k & v & Hin & H). exists (k, v). split; [exact Hin|]. cbn. apply negb_true_iff. apply str_mem_false. intros X. apply in_map_iff in X.
    destruct X as (c & E & Hc). apply filter_In in Hc. destruct Hc as [Hc Hv]. apply negb_true_iff in Hv. exact (H c Hc Hv E).
Qed.
Lemma unknown_iff_false (cols : list (tcol V)) it : unknown_keys cols it = false <-> ~ unknown_field cols it.
Proof. rewrite <- unknown_iff. destruct (unknown_keys cols it); split; intros H; try reflexivity; try discriminate; [exfalso; apply H; reflexivity]. Qed.

(** writerows of lists, row after row *)
Fixpoint wrows (w : wstate) (rows : list (list cell)) : wstate * option exn :=
  match rows with
  | [] => (w, None)
  | r :: rest => match writerow pv w r with Err e => (w, Some e) | Ok w' => wrows w' rest end
  end.
Lemma wrows_eq rows : forall i w, writerows_from pv i w (map RList rows) = wrows w rows.
Proof. induction rows as [|r rows IH]; intros i w; cbn; [reflexivity|]. destruct (writerow pv w r); [apply IH|reflexivity]. Qed.
Lemma wrows_app a b : forall w w', wrows w a = (w', None) -> wrows w (a ++ b) = wrows w' b.
Proof.
  induction a as [|r a IH]; intros w w' H; cbn in *; [injection H as ->; reflexivity|].
  destruct (writerow pv w r); [apply IH; exact H|discriminate].
Qed.
Lemma write_items_ok strict (cols : list (tcol V)) items : forall w w',
  write_items sc pv strict cols w items = (w', None) <->
  (strict = true -> forall it, In it items -> ~ unknown_field cols it) /\
  exists rows, Forall2 (row_of sc cols) items rows /\ wrows w rows = (w', None).
Proof.
  induction items as [|it items IH]; intros w w'; cbn [write_items].
  - split; [intros H; injection H as ->; split; [intros _ it []|exists []; split; [constructor|reflexivity]]|].
    intros (_ & rows & H1 & H2). destruct rows; [|inversion H1]. exact H2.
  - destruct (strict && unknown_keys cols it) eqn:Eu.
    { split; [discriminate|]. intros [H _]. apply andb_true_iff in Eu. destruct Eu as [-> Eu]. exfalso.
      apply (H eq_refl it (or_introl eq_refl)). apply unknown_iff. exact Eu. }
    assert (Hu : strict = true -> ~ unknown_field cols it).
    { intros ->. cbn in Eu. apply unknown_iff_false. exact Eu. }
    destruct (item_row sc cols it) as [cells|e] eqn:Er.
    + apply item_row_iff in Er. destruct (writerow pv w cells) as [w1|e] eqn:Ew.
      * rewrite IH. split; intros (H1 & rows & H2 & H3).
        -- split; [intros Hs it' [<-|Hi]; [apply Hu; exact Hs|apply H1; assumption]|]. exists (cells :: rows). split; [constructor; assumption|].
           cbn. rewrite Ew. exact H3.
        -- split; [intros Hs it' Hi; apply H1; [exact Hs|right; exact Hi]|]. destruct rows as [|r rows]; [inversion H2|].
           assert (X : row_of sc cols it r /\ Forall2 (row_of sc cols) items rows) by (inversion H2; auto). destruct X as [X1 X2].
           apply item_row_iff in X1. apply item_row_iff in Er. rewrite Er in X1. injection X1 as <-. exists rows. split; [exact X2|].
           cbn in H3. rewrite Ew in H3. exact H3.
      * split; [discriminate|]. intros (_ & rows & H2 & H3). destruct rows as [|r rows]; [inversion H2|].
        assert (X1 : row_of sc cols it r) by (inversion H2; auto). apply item_row_iff in X1. apply item_row_iff in Er. rewrite Er in X1. injection X1 as <-.
        cbn in H3. rewrite Ew in H3. discriminate.
    + split; [discriminate|]. intros (_ & rows & H2 & _). destruct rows as [|r rows]; [inversion H2|].
      assert (X1 : row_of sc cols it r) by (inversion H2; auto). apply item_row_iff in X1. congruence.
Qed.

Definition header_rows (cols : list (tcol V)) : list (list cell) :=
  if d_header d then [map (fun c => CStr (tc_header c)) (filter (fun c => negb (tc_virtual c)) cols)] else [].
Lemma header_rows_eq cols : header_rows cols = if d_header d then [map CStr (colnames cols)] else [].
Proof. unfold header_rows, colnames, regular. rewrite map_map. reflexivity. Qed.

(** success, exactly *)
Theorem write_ok strict (cols : list (tcol V)) before items after n :
  table_write sc pv lim d strict cols before items = (after, Ok n) <->
  n = length items /\ (strict = true -> forall it, In it items -> ~ unknown_field cols it) /\
  exists rows t, Forall2 (row_of sc cols) items rows
    /\ write_file pv lim (Some d) kw0 (header_rows cols ++ rows) = Ok t /\ after = Some t.
Proof.
  unfold table_write, write_file, writerows. rewrite header_rows_eq.
  assert (Ho : writer_open lim (Some d) kw0 = (k <- effective_kw (Some d) kw0 ;; f <- mk_fmt lim k ;; Ok {| w_kw := k; w_fmt := f; w_out := []; w_rows := 0 |})) by reflexivity.
  destruct (effective_kw (Some d) kw0) as [k|e] eqn:Ek.
  2:{ rewrite Ho. cbn. split; [discriminate|]. intros (_ & _ & rows & t & _ & H & _). discriminate. }
  clear Ho. destruct (writer_open lim (Some d) kw0) as [w|e]; [|split; [discriminate|]; intros (_ & _ & rows & t & _ & H & _); discriminate].
  destruct (d_header d).
  - split.
    + intros H. destruct (writerow pv w (map CStr (colnames cols))) as [w1|e] eqn:Eh; [|discriminate].
      destruct (write_items sc pv strict cols w1 items) as [w2 [e|]] eqn:Ew; cbn in H; [discriminate|]. injection H as <- <-. split; [reflexivity|].
      apply write_items_ok in Ew. destruct Ew as (H1 & rows & H2 & H3). split; [exact H1|]. exists rows. eexists. split; [exact H2|]. split; [|reflexivity].
      rewrite wrows_eq. cbn. rewrite Eh, H3. reflexivity.
    + intros (-> & H1 & rows & t & H2 & H3 & ->). rewrite wrows_eq in H3. cbn in H3.
      destruct (writerow pv w (map CStr (colnames cols))) as [w1|e] eqn:Eh; [|discriminate].
      destruct (wrows w1 rows) as [w2 [e|]] eqn:Ew; [discriminate|]. injection H3 as <-.
      assert (X : write_items sc pv strict cols w1 items = (w2, None)) by (apply write_items_ok; eauto). rewrite X. reflexivity.
  - split.
    + intros H. destruct (write_items sc pv strict cols w items) as [w2 [e|]] eqn:Ew; cbn in H; [discriminate|]. injection H as <- <-. split; [reflexivity|].
      apply write_items_ok in Ew. destruct Ew as (H1 & rows & H2 & H3). split; [exact H1|]. exists rows. eexists. split; [exact H2|]. split; [|reflexivity].
      rewrite wrows_eq. cbn. rewrite H3. reflexivity.
    + intros (-> & H1 & rows & t & H2 & H3 & ->). rewrite wrows_eq in H3. cbn in H3.
      destruct (wrows w rows) as [w2 [e|]] eqn:Ew; [discriminate|]. injection H3 as <-.
      assert (X : write_items sc pv strict cols w items = (w2, None)) by (apply write_items_ok; eauto). rewrite X. reflexivity.
Qed.

Lemma write_items_strict_same (cols : list (tcol V)) items : (forall it, In it items -> ~ unknown_field cols it) ->
  forall w, write_items sc pv true cols w items = write_items sc pv false cols w items.
Proof.
  induction items as [|it items IH]; intros H w; cbn [write_items]; [reflexivity|].
  replace (unknown_keys cols it) with false by (symmetry; apply unknown_iff_false, H; left; reflexivity). cbn [andb].
  destruct (item_row sc cols it) as [cells|]; [|reflexivity]. destruct (writerow pv w cells); [|reflexivity]. apply IH. intros it' Hi. apply H. right. exact Hi.
Qed.
Theorem write_strict_same (cols : list (tcol V)) before items : (forall it, In it items -> ~ unknown_field cols it) ->
  table_write sc pv lim d true cols before items = table_write sc pv lim d false cols before items.
Proof.
  intros H. unfold table_write. destruct (effective_kw (Some d) kw0); [|reflexivity].
  destruct (writer_open lim (Some d) kw0) as [w|]; [|reflexivity]. destruct (d_header d); [destruct (writerow pv w (map CStr (colnames cols)))|];
    rewrite ?(write_items_strict_same cols items H); reflexivity.
Qed.
Lemma write_items_app (cols : list (tcol V)) pre it post : unknown_field cols it -> forall w w',
  write_items sc pv true cols w pre = (w', None) -> write_items sc pv true cols w (pre ++ it :: post) = (w', Some ValueError).
Proof.
  intros Hu. induction pre as [|x pre IH]; intros w w' H; cbn [write_items app] in *.
  - injection H as ->. apply unknown_iff in Hu. rewrite Hu. reflexivity.
  - destruct (true && unknown_keys cols x); [discriminate|]. destruct (item_row sc cols x) as [cells|]; [|discriminate].
    destruct (writerow pv w cells); [|discriminate]. apply IH. exact H.
Qed.
(** strict=True: the file is left with what was written before the first item with unknown keys *)
Theorem write_strict_unknown (cols : list (tcol V)) before pre it post rows t :
  (forall x, In x pre -> ~ unknown_field cols x) -> unknown_field cols it ->
  Forall2 (row_of sc cols) pre rows -> write_file pv lim (Some d) kw0 (header_rows cols ++ rows) = Ok t ->
  table_write sc pv lim d true cols before (pre ++ it :: post) = (Some t, Err ValueError).
Proof.
  intros H1 H2 H3 H4.
  assert (Hw : table_write sc pv lim d true cols before pre = (Some t, Ok (length pre))).
  { apply write_ok. split; [reflexivity|]. split; [auto|]. eauto. }
  unfold table_write in *. destruct (effective_kw (Some d) kw0); [|discriminate].
  destruct (writer_open lim (Some d) kw0) as [w|]; [|discriminate]. destruct (d_header d).
  - destruct (writerow pv w (map CStr (colnames cols))) as [w1|]; [|discriminate].
    destruct (write_items sc pv true cols w1 pre) as [w2 [e|]] eqn:E; cbn in Hw; [discriminate|]. injection Hw as <-.
    rewrite (write_items_app cols pre it post H2 _ _ E). reflexivity.
  - destruct (write_items sc pv true cols w pre) as [w2 [e|]] eqn:E; cbn in Hw; [discriminate|]. injection Hw as <-.
    rewrite (write_items_app cols pre it post H2 _ _ E). reflexivity.
Qed.
Lemma first_unknown (cols : list (tcol V)) items : (forall it, In it items -> ~ unknown_field cols it) \/
  exists pre it post, items = pre ++ it :: post /\ (forall x, In x pre -> ~ unknown_field cols x) /\ unknown_field cols it.
Proof.
  induction items as [|x items IH]; [left; intros it []|]. destruct (unknown_keys cols x) eqn:E.
  - right. exists [], x, items. split; [reflexivity|]. split; [intros y []|]. apply unknown_iff. exact E.
  - apply unknown_iff_false in E. destruct IH as [IH|(pre & it & post & -> & H1 & H2)].
    + left. intros it [<-|Hi]; auto.
    + right. exists (x :: pre), it, post. split; [reflexivity|]. split; [|exact H2]. intros y [<-|Hi]; auto.
Qed.
(** given that the items could be written otherwise *)
Theorem write_strict_iff (cols : list (tcol V)) before items after n :
  table_write sc pv lim d false cols before items = (after, Ok n) ->
  ((exists it, In it items /\ unknown_field cols it) <-> snd (table_write sc pv lim d true cols before items) = Err ValueError)
  /\ ((forall it, In it items -> ~ unknown_field cols it) -> table_write sc pv lim d true cols before items = (after, Ok n)).
Proof.
  intros H. split.
  2:{ intros Hn. rewrite write_strict_same; assumption. }
  split.
  - intros (it0 & Hi & Hu). destruct (first_unknown cols items) as [Hn|(pre & it & post & -> & H1 & H2)]; [exfalso; exact (Hn _ Hi Hu)|].
    apply write_ok in H. destruct H as (_ & _ & rows & t & HF & Hw & _).
    apply Forall2_app_inv_l in HF. destruct HF as (r1 & r2 & F1 & F2 & ->).
    assert (Hw' : exists t', write_file pv lim (Some d) kw0 (header_rows cols ++ r1) = Ok t').
    { rewrite app_assoc in Hw. unfold write_file, writerows in *. destruct (writer_open lim (Some d) kw0) as [w|]; [|discriminate].
      rewrite wrows_eq in *. revert Hw. generalize (header_rows cols ++ r1) as l. clear. intros l. revert w. induction l as [|r l IH]; intros w H; cbn in *; [eauto|].
      destruct (writerow pv w r); [apply IH; exact H|discriminate]. }
    destruct Hw' as (t' & Hw'). rewrite (write_strict_unknown cols before pre it post r1 t'); auto.
  - intros Hs. destruct (first_unknown cols items) as [Hn|(pre & it & post & -> & H1 & H2)].
    + exfalso. rewrite (write_strict_same cols before items Hn), H in Hs. discriminate.
    + exists it. split; [apply in_or_app; right; left; reflexivity|exact H2].
Qed.
End W.

(** ** C32 *)
Section PK.
Context {V : Type} (veq : V -> V -> bool) (Heq : equivalence veq).
Lemma key_eq_iff a : forall b, no_lists a -> (key_eq veq a b = true <-> same_key veq a b).
Proof.
  induction a as [|x a IH]; intros [|y b] Hn; cbn.
  - split; [constructor|reflexivity].
  - split; [discriminate|intros H; inversion H].
  - split; [discriminate|intros H; inversion H].
  - rewrite andb_true_iff, IH by (intros l Hl; apply (Hn l); right; exact Hl). split.
    + intros [H1 H2]. constructor; [|exact H2]. destruct x, y; cbn in *; try discriminate; auto.
    + intros H. assert (X : same_value veq x y /\ same_key veq a b) by (inversion H; auto). destruct X as [X Y]. split; [|exact Y].
      destruct x, y; cbn in *; auto; contradiction.
Qed.
Lemma same_value_refl a : (forall l, a <> PList l) -> same_value veq a a.
Proof. destruct Heq as (H1 & _). destruct a; cbn; auto. intros H. exfalso. eapply H. reflexivity. Qed.
Lemma same_value_sym a b : same_value veq a b -> same_value veq b a.
Proof. destruct Heq as (_ & H2 & _). destruct a, b; cbn; auto. Qed.
Lemma same_value_trans a b c : same_value veq a b -> same_value veq b c -> same_value veq a c.
Proof. destruct Heq as (_ & _ & H3). destruct a, b, c; cbn; try contradiction; eauto. Qed.
Lemma same_key_sym a b : same_key veq a b -> same_key veq b a.
Proof. induction 1; constructor; [apply same_value_sym|]; assumption. Qed.
Lemma same_key_trans a : forall b c, same_key veq a b -> same_key veq b c -> same_key veq a c.
Proof.
  induction a as [|x a IH]; intros b c H1 H2; inversion H1; subst; inversion H2; subst; constructor; [eapply same_value_trans; eassumption|eapply IH; eassumption].
Qed.
Lemma get_key_iff pk (d : dict V) key : get_key pk d = Ok key <-> has_keys pk d key.
Proof.
  unfold get_key, has_keys. rewrite mapM_Ok_iff. split; intros H; eapply Forall2_impl; try exact H; cbn; intros k v X.
  - destruct (dget str_eqb d k); [congruence|discriminate].
  - rewrite X. reflexivity.
Qed.
Lemma hashable_iff (key : list (pyval V)) : forallb hashable key = true <-> no_lists key.
Proof.
  unfold no_lists. rewrite forallb_forall. split.
  - intros H l Hl. apply H in Hl. discriminate.
  - intros H x Hx. destruct x; cbn; auto. exfalso. eapply H. exact Hx.
Qed.

(** keys seen so far stand for the earlier rows *)
Definition represents (seen : list (list (pyval V))) (keys : list (list (pyval V))) : Prop :=
  (forall k, In k seen -> In k keys) /\ (forall k, In k keys -> exists k', In k' seen /\ same_key veq k k').

Lemma pk_loop_spec log pk endr rows : forall seen success earlier keys,
  Forall2 (fun lr key => has_keys pk (snd lr) key) rows keys -> (forall k, In k (earlier ++ keys) -> no_lists k) ->
  represents seen earlier ->
  let r := pk_loop veq log pk seen success rows endr in
  (log = true -> exists dup, Selected (repeated veq (earlier ++ keys)) (seq (length earlier) (length keys)) dup
     /\ fst r = map (fun i => fst (nth (i - length earlier) rows (0%nat, []))) dup
     /\ snd r = match endr with Some e => Err e | None => Ok (success && match dup with [] => true | _ => false end) end)
  /\ (log = false -> fst r = [] /\
      ((exists i, (length earlier <= i < length earlier + length keys)%nat /\ repeated veq (earlier ++ keys) i) -> snd r = Err ValueError)
      /\ ((forall i, (length earlier <= i < length earlier + length keys)%nat -> ~ repeated veq (earlier ++ keys) i) ->
          snd r = match endr with Some e => Err e | None => Ok success end)).
Proof.
  induction rows as [|[line d] rows IH]; intros seen success earlier keys HF Hl Hr; cbn zeta.
  - destruct keys; [|inversion HF]. cbn. split; intros _.
    + exists []. split; [constructor|]. split; [reflexivity|]. rewrite andb_true_r. reflexivity.
    + split; [reflexivity|]. split; [intros (i & Hi & _); lia|]. reflexivity.
  - destruct keys as [|key keys]; [inversion HF|].
    assert (X : has_keys pk d key /\ Forall2 (fun lr key => has_keys pk (snd lr) key) rows keys) by (inversion HF; auto). destruct X as [Hk HF'].
    cbn [pk_loop]. rewrite (proj2 (get_key_iff pk d key) Hk).
    assert (Hnl : no_lists key) by (apply Hl; apply in_or_app; right; left; reflexivity).
    rewrite (proj2 (hashable_iff key) Hnl). cbn [negb].
    assert (Hkk : same_key veq key key).
    { clear -Heq Hnl. induction key as [|x key IH]; constructor; [|apply IH; intros l Hl; apply (Hnl l); right; exact Hl].
      apply same_value_refl. intros l ->. apply (Hnl l). left. reflexivity. }
    assert (Eapp : earlier ++ key :: keys = (earlier ++ [key]) ++ keys) by (rewrite <- app_assoc; reflexivity).
    assert (Elen : length (earlier ++ [key]) = S (length earlier)) by (rewrite app_length; cbn; lia).
    assert (Hrep : repeated veq (earlier ++ key :: keys) (length earlier) <-> existsb (key_eq veq key) seen = true).
    { rewrite existsb_exists. split.
      - intros (i' & k & k' & Hlt & N1 & N2 & Hs). rewrite nth_error_app2, Nat.sub_diag in N1 by lia. cbn in N1. injection N1 as <-.
        rewrite nth_error_app1 in N2 by exact Hlt. apply nth_error_In in N2. destruct Hr as [_ Hr]. destruct (Hr _ N2) as (k2 & I2 & S2).
        exists k2. split; [exact I2|]. apply key_eq_iff; [exact Hnl|]. eapply same_key_trans; eassumption.
      - intros (k' & I & E). apply key_eq_iff in E; [|exact Hnl]. destruct Hr as [Hr _]. apply Hr in I. apply In_nth_error in I. destruct I as [i' I].
        assert (Hlt : (i' < length earlier)%nat) by (apply nth_error_Some; congruence).
        exists i', key, k'. split; [exact Hlt|]. rewrite nth_error_app2, Nat.sub_diag by lia. rewrite nth_error_app1 by exact Hlt. cbn. auto. }
    assert (Hshift : forall dup, Selected (repeated veq ((earlier ++ [key]) ++ keys)) (seq (S (length earlier)) (length keys)) dup ->
        map (fun i => fst (nth (i - length (earlier ++ [key])) rows (0%nat, []))) dup
        = map (fun i => fst (nth (i - length earlier) ((line, d) :: rows) (0%nat, []))) dup).
    { intros dup Hs. apply map_ext_in. intros i Hi. rewrite Elen.
      assert (Hin : In i (seq (S (length earlier)) (length keys))).
      { clear -Hs Hi. induction Hs; [destruct Hi| |right; auto]. destruct Hi as [->|Hi]; [left; reflexivity|right; auto]. }
      apply in_seq in Hin. replace (i - length earlier)%nat with (S (i - S (length earlier)))%nat by lia. reflexivity. }
    destruct (existsb (key_eq veq key) seen) eqn:Ee.
    + assert (Hr' : represents seen (earlier ++ [key])).
      { destruct Hr as [R1 R2]. split; [intros k Hin; apply in_or_app; left; auto|]. intros k Hin. apply in_app_or in Hin.
        destruct Hin as [Hin|[<-|[]]]; [auto|]. apply existsb_exists in Ee. destruct Ee as (k' & I & E). exists k'. split; [exact I|].
        apply key_eq_iff; assumption. }
      apply proj2 in Hrep. specialize (Hrep eq_refl).
      destruct log; split; try discriminate; intros _.
      * destruct (IH seen false (earlier ++ [key]) keys HF' ltac:(rewrite <- Eapp; exact Hl) Hr') as [G _]. destruct (G eq_refl) as (dup & D1 & D2 & D3).
        exists (length earlier :: dup). cbn [length seq map fst snd]. rewrite D2, D3, (Hshift dup).
        -- rewrite Nat.sub_diag. cbn [nth fst]. split; [|split; [reflexivity|]].
           ++ constructor; [exact Hrep|]. rewrite Eapp. rewrite Elen in D1. exact D1.
           ++ rewrite !andb_false_r. reflexivity.
        -- rewrite Elen in D1. exact D1.
      * split; [reflexivity|]. split; [reflexivity|]. intros H. exfalso. apply (H (length earlier)); [cbn; lia|exact Hrep].
    + assert (Hr' : represents (key :: seen) (earlier ++ [key])).
      { destruct Hr as [R1 R2]. split.
        - intros k [<-|Hin]; apply in_or_app; [right; left; reflexivity|left; auto].
        - intros k Hin. apply in_app_or in Hin. destruct Hin as [Hin|[<-|[]]].
          + destruct (R2 k Hin) as (k' & I & S). exists k'. split; [right; exact I|exact S].
          + exists key. split; [left; reflexivity|exact Hkk]. }
      assert (Hnr : ~ repeated veq (earlier ++ key :: keys) (length earlier)) by (rewrite Hrep; discriminate).
      destruct (IH (key :: seen) success (earlier ++ [key]) keys HF' ltac:(rewrite <- Eapp; exact Hl) Hr') as [G1 G2]. rewrite Elen in G1, G2. split; intros Hlog.
      * destruct (G1 Hlog) as (dup & D1 & D2 & D3). exists dup. cbn [length seq]. split; [|split; [|exact D3]].
        -- rewrite Eapp in *. constructor; assumption.
        -- rewrite D2. rewrite <- Elen. apply Hshift. exact D1.
      * destruct (G2 Hlog) as (D1 & D2 & D3). split; [exact D1|]. cbn [length]. split.
        -- intros (i & Hi & Hrp). apply D2. exists i. rewrite <- Eapp. split; [|exact Hrp].
           assert (i <> length earlier) by (intros ->; contradiction). lia.
        -- intros H. apply D3. intros i Hi. rewrite <- Eapp. apply H. lia.
Qed.
Theorem primary_key_log k ks (o : @iterout V) keys :
  Forall2 (fun lr key => has_keys (k :: ks) (snd lr) key) (io_rows o) keys -> (forall key, In key keys -> no_lists key) ->
  io_end o = None ->
  exists dup, Selected (repeated veq keys) (seq 0 (length keys)) dup
    /\ check_primary_key veq true (Some (k :: ks)) o
       = (map (fun i => fst (nth i (io_rows o) (0%nat, []))) dup, Ok (match dup with [] => true | _ => false end)).
Proof.
  intros HF Hl He. destruct (pk_loop_spec true (k :: ks) (io_end o) (io_rows o) [] true [] keys HF Hl) as [G _].
  { split; intros x []. }
  destruct (G eq_refl) as (dup & D1 & D2 & D3). exists dup. split; [exact D1|]. cbn [check_primary_key].
  rewrite (surjective_pairing (pk_loop _ _ _ _ _ _ _)), D2, D3, He. cbn. f_equal. apply map_ext. intros i. rewrite Nat.sub_0_r. reflexivity.
Qed.
Theorem primary_key_nolog k ks (o : @iterout V) keys :
  Forall2 (fun lr key => has_keys (k :: ks) (snd lr) key) (io_rows o) keys -> (forall key, In key keys -> no_lists key) ->
  fst (check_primary_key veq false (Some (k :: ks)) o) = []
  /\ ((exists i, repeated veq keys i) -> snd (check_primary_key veq false (Some (k :: ks)) o) = Err ValueError)
  /\ ((forall i, ~ repeated veq keys i) ->
      snd (check_primary_key veq false (Some (k :: ks)) o) = match io_end o with Some e => Err e | None => Ok true end).
Proof.
  intros HF Hl. destruct (pk_loop_spec false (k :: ks) (io_end o) (io_rows o) [] true [] keys HF Hl) as [_ G].
  { split; intros x []. }
  destruct (G eq_refl) as (D1 & D2 & D3). cbn [check_primary_key]. split; [exact D1|]. split.
  - intros (i & H). apply D2. exists i. split; [|exact H]. destruct H as (i' & a & b & Hlt & N1 & _). cbn in *.
    assert (i < length keys)%nat by (apply nth_error_Some; congruence). lia.
  - intros H. apply D3. intros i _. apply H.
Qed.
End PK.
