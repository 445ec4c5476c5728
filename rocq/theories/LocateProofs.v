(** Proofs about the location of metadata. *)
From Verif Require Import PyStr Json Dsv DsvProofs4 FrictionlessProofs2 Locate LocateSpec.

Lemma is_url_iff s : is_url s = true <-> remote s.
Proof.
  unfold is_url, remote. rewrite orb_true_iff, !startswith_spec. split.
  - intros [(r & ->)|(r & ->)]; eauto.
  - intros (r & [->| ->]); eauto.
Qed.
Lemma is_url_false s : is_url s = false <-> ~ remote s.
Proof. rewrite <- is_url_iff. destruct (is_url s); split; congruence. Qed.
Lemma absent_here_iff s : absent_here s = true <->
  exists s1 s2 b, s = lit "header" ++ s1 ++ lit "=" ++ s2 ++ lit "absent" ++ b /\
    Forall (fun c => is_space c = true) s1 /\ Forall (fun c => is_space c = true) s2.
Proof.
  unfold absent_here. split.
  - intros H. apply andb_prop in H as [H1 H2]. apply startswith_spec in H1 as (r & ->).
    replace (skipn 6 (lit "header" ++ r)) with r in H2 by reflexivity.
    destruct (lstrip_by_spec is_space r) as (a & E & A & _).
    destruct (lstrip_by is_space r) as [|c r'] eqn:L; [discriminate|].
    apply andb_prop in H2 as [C H2]. apply N.eqb_eq in C; subst c.
    apply startswith_spec in H2 as (b & B).
    destruct (lstrip_by_spec is_space r') as (a2 & E2 & A2 & _). rewrite B in E2.
    exists a, a2, b. rewrite E, E2. split; [reflexivity|].
    split; apply Forall_forall; intros x X; [rewrite forallb_forall in A; auto | rewrite forallb_forall in A2; auto].
  - intros (s1 & s2 & b & -> & F1 & F2).
    replace (startswith (lit "header") _) with true by (symmetry; apply startswith_spec; eauto).
    cbn [andb]. replace (skipn 6 _) with (s1 ++ lit "=" ++ s2 ++ lit "absent" ++ b) by reflexivity.
    rewrite lstrip_by_app by (apply forallb_forall; intros x X; rewrite Forall_forall in F1; auto).
    change (lit "=" ++ s2 ++ lit "absent" ++ b) with (61%N :: s2 ++ lit "absent" ++ b).
    rewrite lstrip_by_stop by reflexivity. change ((61 =? 61)%N) with true. cbn [andb].
    rewrite lstrip_by_app by (apply forallb_forall; intros x X; rewrite Forall_forall in F2; auto).
    reflexivity.
Qed.
Lemma header_absent_iff s : header_absent s = true <-> announces_no_header s.
Proof.
  unfold announces_no_header. induction s as [|c s IH].
  - split; [intros H|intros (a & s1 & s2 & b & E & _)].
    + discriminate.
    + destruct a; discriminate.
  - cbn [header_absent]. rewrite orb_true_iff, IH, absent_here_iff. split.
    + intros [(s1 & s2 & b & E & F)|(a & s1 & s2 & b & E & F)].
      * exists [], s1, s2, b; auto.
      * exists (c :: a), s1, s2, b. rewrite E. split; [reflexivity|auto].
    + intros ([|x a] & s1 & s2 & b & E & F); [left; exists s1, s2, b; auto|].
      right. injection E as -> E. exists a, s1, s2, b; auto.
Qed.

Lemma last_split c cur s : exists f, last (split_aux [c] cur s 0) [] = f /\
  ((f = cur ++ s /\ ~ In c s) \/ (exists a, s = a ++ c :: f /\ ~ In c f)).
Proof.
  revert cur; induction s as [|x s IH]; intros cur.
  - eexists; split; [reflexivity|]. cbn. left. rewrite app_nil_r. auto.
  - cbn [split_aux startswith]. rewrite andb_true_r. destruct (c =? x)%N eqn:E.
    + apply N.eqb_eq in E; subst x. cbn [List.length Nat.sub].
      destruct (IH []) as (f & L & D). exists f. split.
      * destruct (split_aux [c] [] s 0) eqn:S; [|rewrite <- L; reflexivity].
        exfalso. clear - S. destruct s; cbn in S; [discriminate|].
        assert (G : forall s cur k, split_aux [c] cur s k <> []).
        { clear. induction s as [|y s IH]; intros cur k; cbn; [discriminate|].
          destruct k; [|apply IH]. destruct (_ && _); [discriminate|apply IH]. }
        apply (G (n :: s) [] 0%nat). exact S.
      * right. destruct D as [[-> N]|(a & -> & N)]; [exists []|exists (c :: a)]; auto.
    + apply N.eqb_neq in E. destruct (IH (cur ++ [x])) as (f & L & D). exists f. split; [exact L|].
      destruct D as [[-> N]|(a & -> & N)].
      * left. rewrite <- app_assoc. split; [reflexivity|]. intros [H|H]; [congruence|auto].
      * right. exists (x :: a). auto.
Qed.
Lemma last_component_part u : last_part u (last_component u).
Proof.
  unfold last_component, split. destruct (last_split 47%N [] u) as (f & L & D).
  change (lit "/") with [47%N]. rewrite L. unfold last_part.
  destruct D as [[-> N]|(a & -> & N)]; split; auto. right. exists a. reflexivity.
Qed.
Lemma last_part_unique u f g : last_part u f -> last_part u g -> f = g.
Proof.
  change (lit "/") with [47%N].
  assert (G : forall a b f g : pystr, ~ In 47%N f -> ~ In 47%N g -> a ++ 47%N :: f = b ++ 47%N :: g -> f = g).
  { induction a as [|x a IH]; intros [|y b] f' g' F G E; cbn in E; inversion E; subst; auto.
    - exfalso. apply F. apply in_or_app. right; left; reflexivity.
    - exfalso. apply G. apply in_or_app. right; left; reflexivity.
    - eapply IH; eauto. }
  intros [F [->|(a & ->)]] [Gn [E|(b & E)]]; auto.
  - exfalso. apply F. rewrite E. apply in_or_app. right; left; reflexivity.
  - exfalso. apply Gn. rewrite <- E. apply in_or_app. right; left; reflexivity.
  - eapply G; eauto.
Qed.
Lemma same_name_iff u v : same_name u v <-> last_component u = last_component v.
Proof.
  split.
  - intros (f & U & V). rewrite (last_part_unique u _ f (last_component_part u) U).
    symmetry. apply (last_part_unique v _ f (last_component_part v) V).
  - intros E. exists (last_component u). split; [apply last_component_part|].
    rewrite E. apply last_component_part.
Qed.
Lemma url_of_table_iff t s : url_of_table t = Ok s <-> table_url t s.
Proof.
  unfold table_url, url_of_table. split.
  - destruct t as [| | | | | |kvs]; try discriminate. destruct (dget str_eqb kvs (lit "url")) as [[]|] eqn:E; try discriminate.
    intros H; apply Ok_inj in H; subst. eauto.
  - intros (kvs & -> & ->). reflexivity.
Qed.
Lemma describes_any_ok ts url b : describes_any ts url = Ok b ->
  (b = true <-> exists t s, In t ts /\ table_url t s /\ same_name url s).
Proof.
  revert b; induction ts as [|t ts IH]; intros b H; cbn in H.
  - apply Ok_inj in H; subst. split; [discriminate|intros (t & s & [] & _)].
  - apply bind_inv in H as (u & U & H). apply url_of_table_iff in U.
    destruct (str_eqb _ _) eqn:E.
    + apply Ok_inj in H; subst. split; [|auto]. intros _. exists t, u. split; [left; auto|].
      split; [auto|]. apply same_name_iff. apply str_eqb_eq. exact E.
    + rewrite (IH _ H). split; intros (t' & s & I & U' & S').
      * exists t', s; cbn; auto.
      * destruct I as [<-|I]; [|exists t', s; auto]. exfalso.
        assert (s = u) as -> by (destruct U as (k & -> & K); destruct U' as (k' & Q & K'); injection Q as <-; congruence).
        apply same_name_iff in S'. apply str_eqb_neq in E. contradiction.
Qed.
Lemma describes_ok md url b : describes md url = Ok b -> (b = true <-> refers md url).
Proof.
  unfold describes, refers. destruct md as [| | | | | |kvs]; try discriminate.
  intros H; apply bind_inv in H as (ts & T & H). rewrite (describes_any_ok _ _ _ H).
  destruct (dget str_eqb kvs (lit "tables")) as [j|] eqn:G.
  - split.
    + intros (t & s & I & U & S). exists t, s. split; [|auto]. exists kvs. split; [reflexivity|]. right.
      destruct j; try discriminate T.
      * exfalso. apply Ok_inj in T; subst ts. apply in_map_iff in I as (c & <- & _). destruct U as (k & Q & _); discriminate.
      * apply Ok_inj in T; subst. eauto.
      * exfalso. apply Ok_inj in T; subst ts. apply in_map_iff in I as (c & <- & _). destruct U as (k & Q & _); discriminate.
    + intros (t & s & (kvs' & Q & D) & U & S). injection Q as <-. exists t, s. split; [|auto].
      destruct D as [[D _]|(l & D & I)]; [congruence|]. rewrite G in D. injection D as ->. apply Ok_inj in T; subst. auto.
  - apply Ok_inj in T; subst ts. split.
    + intros (t & s & [<-|[]] & U & S). eexists _, s. split; [|eauto]. exists kvs; auto.
    + intros (t & s & (kvs' & Q & D) & U & S). injection Q as <-. exists t, s. split; [|auto].
      destruct D as [[_ D]|(l & D & I)]; [left; auto|congruence].
Qed.
Lemma describes_total md url : shaped md -> exists b, describes md url = Ok b.
Proof.
  intros (kvs & -> & T & U). cbn [describes].
  assert (X : forall ts, (forall t, In t ts -> exists s, table_url t s) -> exists b, describes_any ts url = Ok b).
  { induction ts as [|t ts IH]; intros H; cbn; [eauto|].
    destruct (H t) as (s & S); [left; auto|]. apply url_of_table_iff in S. rewrite S. cbn.
    destruct (str_eqb _ _); [eauto|]. apply IH. intros; apply H; right; auto. }
  destruct T as [T|(ts & T)]; rewrite T; cbn [iterate bind].
  - apply X. intros t [<-|[]]. apply U. exists kvs; auto.
  - apply X. intros t I. apply U. exists kvs; split; [auto|]. right; eauto.
Qed.

Lemma split_lines s : Forall (fun l => ~ In 10%N l) (split [10%N] s) /\ split [10%N] s <> [] /\ join [10%N] (split [10%N] s) = s.
Proof.
  unfold split.
  assert (G : forall s cur, ~ In 10%N cur -> let r := split_aux [10%N] cur s 0 in Forall (fun l => ~ In 10%N l) r /\ r <> [] /\ join [10%N] r = cur ++ s).
  { clear. induction s as [|x s IH]; intros cur C.
    - cbn. rewrite app_nil_r. repeat split; auto; discriminate.
    - cbn [split_aux startswith]. rewrite andb_true_r. destruct (10 =? x)%N eqn:E.
      + apply N.eqb_eq in E; subst x. cbn [List.length Nat.sub]. destruct (IH [] (fun H => H)) as (A & B & D).
        cbn [app] in D. cbn zeta. split; [constructor; auto|]. split; [discriminate|].
        destruct (split_aux [10%N] [] s 0) eqn:S; [contradiction|]. rewrite <- D. reflexivity.
      + apply N.eqb_neq in E. destruct (IH (cur ++ [x])) as (A & B & D).
        { intros H. apply in_app_or in H as [H|[H|[]]]; auto. }
        cbn zeta. split; [auto|]. split; [auto|]. rewrite D, <- app_assoc. reflexivity. }
  apply (G s []). intros [].
Qed.

Section P.
Variable w : web.
Lemma get_json_document s t : document w s t -> get_json w s = Ok (wb_json w t).
Proof.
  unfold document, get_json. intros [[R (c & G)]|[R G]].
  - apply is_url_iff in R. rewrite R, G. reflexivity.
  - apply is_url_false in R. rewrite R, G. reflexivity.
Qed.
Lemma get_json_ok s md : get_json w s = Ok (Some md) -> exists t, document w s t /\ wb_json w t = Some md.
Proof.
  unfold get_json, document. destruct (is_url s) eqn:E.
  - apply is_url_iff in E. intros H; apply bind_inv in H as ([c t] & G & H). apply Ok_inj in H. exists t; eauto.
  - apply is_url_false in E. destruct (wb_file w s) as [t|]; [|discriminate]. intros H; apply Ok_inj in H. exists t; auto.
Qed.
Lemma get_json_conv s t md : document w s t -> wb_json w t = Some md -> get_json w s = Ok (Some md).
Proof. intros G J. rewrite (get_json_document _ _ G), J. reflexivity. Qed.
Lemma linked_ok url desc m : linked w url desc = Ok m ->
  match m with Some md => link_gives w url desc md | None => forall md, ~ link_gives w url desc md end.
Proof.
  unfold linked. intros H.
  destruct desc as [d|].
  2:{ apply Ok_inj in H; subst. intros md (d & ty & u & t & Q & _); discriminate. }
  destruct d as [|p ps].
  { apply Ok_inj in H; subst. intros md (d & ty & u & t & Q & T & _). injection Q as <-. discriminate. }
  destruct (dget str_eqb (p :: ps) (lit "type")) as [ty|] eqn:T; [|discriminate].
  destruct (str_mem ty json_types) eqn:M.
  - destruct (dget str_eqb (p :: ps) (lit "url")) as [u|] eqn:U; [|discriminate].
    apply bind_inv in H as (j & J & H). destruct j as [md|]; [|discriminate].
    apply bind_inv in H as (b & B & H). apply Ok_inj in H; subst m.
    pose proof (describes_ok _ _ _ B) as D. destruct b.
    + apply get_json_ok in J as (t & G & J). exists (p :: ps), ty, u, t.
      repeat split; auto; [|tauto]. apply str_mem_In. exact M.
    + intros md' (d & ty' & u' & t & Q & T' & _ & U' & G & J' & R). injection Q as <-.
      rewrite U in U'; injection U' as <-. rewrite (get_json_conv _ _ _ G J') in J.
      apply Ok_inj in J. injection J as <-. apply D in R. discriminate.
  - apply Ok_inj in H; subst m. intros md (d & ty' & u & t & Q & T' & I & _). injection Q as <-.
    rewrite T in T'; injection T' as <-. apply str_mem_false in M. contradiction.
Qed.
Lemma at_location_ok url line m : at_location w url line = Ok m ->
  match m with Some md => location_gives w url line md | None => forall md, ~ location_gives w url line md end.
Proof.
  unfold at_location. intros H. apply bind_inv in H as (u & U & H). apply bind_inv in H as ([c t] & G & H). cbn [fst snd] in H.
  destruct (c =? 200)%Z eqn:C.
  - apply Z.eqb_eq in C; subst c. destruct (wb_json w t) as [md|] eqn:J.
    + apply bind_inv in H as (b & B & H). apply Ok_inj in H; subst m. pose proof (describes_ok _ _ _ B) as D. destruct b.
      * exists u, t. tauto.
      * intros md' (u' & t' & U' & G' & J' & R). rewrite U in U'; apply Ok_inj in U'; subst u'. rewrite G in G'. injection G' as <-.
        rewrite J in J'; injection J' as <-. apply D in R. discriminate.
    + apply Ok_inj in H; subst m.
      intros md' (u' & t' & U' & G' & J' & R). rewrite U in U'; apply Ok_inj in U'; subst u'. rewrite G in G'. injection G' as <-. congruence.
  - apply Ok_inj in H; subst m. apply Z.eqb_neq in C.
    intros md' (u' & t' & U' & G' & J' & R). rewrite U in U'; apply Ok_inj in U'; subst u'. rewrite G in G'. injection G' as -> _. congruence.
Qed.
Lemma at_locations_ok url ls m : at_locations w url ls = Ok m ->
  match m with Some md => first_gives w url ls md | None => Forall (fun l => forall md, ~ location_gives w url l md) ls end.
Proof.
  revert m; induction ls as [|l ls IH]; intros m H; cbn in H.
  - apply Ok_inj in H; subst. constructor.
  - apply bind_inv in H as (m' & L & H). apply at_location_ok in L. destruct m' as [md|].
    + apply Ok_inj in H; subst. exists [], l, ls. auto.
    + specialize (IH _ H). destruct m as [md|].
      * destruct IH as (a & x & b & -> & X & A). exists (l :: a), x, b. auto.
      * constructor; auto.
Qed.
Lemma locations_ok url ls : locations w url = Ok ls -> locations_of w url ls.
Proof.
  unfold locations. intros H. apply bind_inv in H as ([c t] & G & H). cbn [fst snd] in H. apply Ok_inj in H. exists c, t. split; [auto|].
  destruct (c =? 200)%Z eqn:C; [left; apply Z.eqb_eq in C|right; apply Z.eqb_neq in C].
  - subst ls. destruct (split_lines t) as (A & B & D). auto.
  - subst ls. auto.
Qed.
Lemma locate_url url md nh : remote url -> locate_metadata w url = Ok (md, nh) ->
  located w url md /\ exists ct desc, wb_head w url = Ok (ct, desc) /\ (nh = true <-> announces_no_header ct).
Proof.
  intros R H. pose proof (proj2 (is_url_iff _) R) as U. unfold locate_metadata in H. rewrite U in H.
  apply bind_inv in H as ([ct desc] & Hd & H). cbn [fst snd] in H.
  assert (N : nh = header_absent ct -> exists ct desc, wb_head w url = Ok (ct, desc) /\ (nh = true <-> announces_no_header ct)).
  { intros ->. exists ct, desc. split; [auto|]. apply header_absent_iff. }
  apply bind_inv in H as (m & L & H). apply linked_ok in L. destruct m as [m|].
  - apply Ok_inj in H. injection H as <- <-. split; [|auto]. eapply LLink; eauto.
  - apply bind_inv in H as (ls & Ls & H). apply locations_ok in Ls.
    apply bind_inv in H as (m & M & H). apply at_locations_ok in M. destruct m as [m|].
    + apply Ok_inj in H. injection H as <- <-. split; [|auto]. eapply LPlace; eauto.
    + apply Ok_inj in H. injection H as <- <-. split; [|auto]. unfold fallback. rewrite U. eapply LNone; eauto.
Qed.
End P.
