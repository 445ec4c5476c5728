(** C53: CSVW(url) uses the right metadata. *)
From Verif Require Import PyStr Json Dsv DsvProofs4 FrictionlessProofs2 Locate LocateSpec LocateProofs.

Lemma open_inv w url mu o : csvw_open w url mu = Ok o ->
  exists j md nh, get_json w (match mu with Some (c :: u) => c :: u | _ => url end) = Ok j /\
    match j with Some m => m = md /\ nh = false | None => locate_metadata w url = Ok (md, nh) end /\
    md = JObj (op_md o) /\ op_no_header o = negb (op_group o) && (is_url url && nh) /\
    has_context (getdef (dget str_eqb (op_md o) (lit "@context")) (JStr [])) = Ok true /\
    (op_group o = true /\ (exists t ts, dget str_eqb (op_md o) (lit "tables") = Some (JList (t :: ts))) \/
     op_group o = false /\ dget str_eqb (op_md o) (lit "tables") = None) /\
    op_nometa o = forallb (fun k => str_mem k [lit "@context"; lit "url"]) (map fst (op_md o)) && str_mem (lit "@context") (map fst (op_md o)) && str_mem (lit "url") (map fst (op_md o)).
Proof.
  unfold csvw_open. intros H. apply bind_inv in H as (j & J & H). apply bind_inv in H as ([md nh] & M & H). cbn [fst snd] in H.
  destruct md as [| | | | | |kvs]; try discriminate. apply bind_inv in H as (c & C & H). destruct c; [|discriminate].
  exists j, (JObj kvs), nh. split; [exact J|]. split.
  { destruct j; [apply Ok_inj in M; injection M as <- <-; auto|exact M]. }
  destruct (dget str_eqb kvs (lit "tables")) as [[]|] eqn:T; try discriminate.
  - destruct l as [|t ts]; [discriminate|]. apply Ok_inj in H; subst o. cbn. repeat split; auto. left. eauto.
  - apply Ok_inj in H; subst o. cbn. repeat split; auto.
Qed.

(** For a remote CSV file the metadata is the linked metadata if that refers to the file, or else the first document,
    among the locations to try, that refers to the file, or else a description with nothing but the URL.
    The dialect's header is switched off exactly for a single table whose content type says header=absent. *)
Theorem c53_remote w url t o : remote url -> document w url t -> wb_json w t = None ->
  csvw_open w url None = Ok o ->
  located w url (JObj (op_md o)) /\
  exists ct desc, wb_head w url = Ok (ct, desc) /\ (op_no_header o = true <-> op_group o = false /\ announces_no_header ct).
Proof.
  intros U D J H. apply open_inv in H as (j & md & nh & G & M & -> & N & _ & _ & _).
  rewrite (get_json_document _ _ _ D), J in G. apply Ok_inj in G; subst j.
  destruct (locate_url w url _ nh U M) as (L & ct & desc & Hd & A). split; [exact L|].
  exists ct, desc. split; [exact Hd|]. rewrite N, (proj2 (is_url_iff _) U). cbn [andb]. rewrite andb_true_iff, negb_true_iff, A. tauto.
Qed.
Print Assumptions c53_remote.

(** So the metadata used for a remote CSV file always refers to it *)
Theorem c53_refers w url t o : remote url -> document w url t -> wb_json w t = None ->
  csvw_open w url None = Ok o -> refers (JObj (op_md o)) url.
Proof.
  intros U D J H. destruct (c53_remote w url t o U D J H) as (L & _).
  inversion L as [ct desc md Hd G E|ct desc ls md Hd N Ls G E|ct desc ls Hd N Ls G E].
  - destruct G as (d & ty & u & t' & _ & _ & _ & _ & _ & _ & R). exact R.
  - destruct G as (a & l & b & _ & (u & t' & _ & _ & _ & R) & _). exact R.
  - exists (JObj [(lit "@context", JStr (lit "http://www.w3.org/ns/csvw")); (lit "url", JStr url)]), url.
    split; [eexists; split; [reflexivity|]; left; split; reflexivity|].
    split; [eexists; split; reflexivity|]. apply same_name_iff; reflexivity.
Qed.
Print Assumptions c53_refers.

(** At most one metadata document can be used for a given state of the web *)
Lemma link_gives_unique w url desc m1 m2 : link_gives w url desc m1 -> link_gives w url desc m2 -> m1 = m2.
Proof.
  intros (d & ty & u & t & Q & _ & _ & U & G & J & _) (d' & ty' & u' & t' & Q' & _ & _ & U' & G' & J' & _).
  rewrite Q in Q'; injection Q' as <-. rewrite U in U'; injection U' as <-.
  pose proof (get_json_conv w _ _ _ G J) as A. pose proof (get_json_conv w _ _ _ G' J') as B.
  rewrite A in B. apply Ok_inj in B. congruence.
Qed.
Lemma join_inj ls ls' : Forall (fun l : pystr => ~ In 10%N l) ls -> ls <> [] -> Forall (fun l : pystr => ~ In 10%N l) ls' -> ls' <> [] ->
  join [10%N] ls = join [10%N] ls' -> ls = ls'.
Proof.
  intros F N F' N' E. rewrite <- (split_join1 10%N ls), <- (split_join1 10%N ls'); auto;
    try (intros x X; rewrite Forall_forall in *; auto); congruence.
Qed.
Lemma locations_unique w url l1 l2 : locations_of w url l1 -> locations_of w url l2 -> l1 = l2.
Proof.
  intros (c & t & G & H) (c' & t' & G' & H'). rewrite G in G'. injection G' as <- <-.
  destruct H as [(C & F & N & E)|(C & ->)], H' as [(C' & F' & N' & E')|(C' & ->)]; try congruence.
  apply join_inj; auto; congruence.
Qed.
Lemma location_unique w url l m1 m2 : location_gives w url l m1 -> location_gives w url l m2 -> m1 = m2.
Proof.
  intros (u & t & U & G & J & _) (u' & t' & U' & G' & J' & _).
  rewrite U in U'; apply Ok_inj in U'; subst u'. rewrite G in G'. injection G' as <-. congruence.
Qed.
Theorem c53_unique w url m1 m2 : located w url m1 -> located w url m2 -> m1 = m2.
Proof.
  intros H1 H2.
  assert (FU : forall ls, first_gives w url ls m1 -> first_gives w url ls m2 -> m1 = m2).
  { intros ls (a & l & b & E & G & N) (a' & l' & b' & E' & G' & N'). subst ls.
    revert a' E' N'. induction a as [|x a IH]; intros [|y a'] E' N'; cbn in E'; inversion E'; subst.
    - eapply location_unique; eauto.
    - inversion N' as [|? ? K]; subst. exfalso. eapply K; eauto.
    - inversion N as [|? ? K]; subst. exfalso. eapply K; eauto.
    - inversion N; inversion N'; subst. eapply IH; eauto. }
  assert (FN : forall ls m, first_gives w url ls m -> Forall (fun l => forall m, ~ location_gives w url l m) ls -> False).
  { intros ls m (a & l & b & -> & G & _) F. apply Forall_app in F as (_ & F). inversion F as [|? ? K]. eapply K; eauto. }
  destruct H1 as [ct desc md Hd G|ct desc ls md Hd N Ls G|ct desc ls Hd N Ls G],
    H2 as [ct' desc' md' Hd' G'|ct' desc' ls' md' Hd' N' Ls' G'|ct' desc' ls' Hd' N' Ls' G'];
    rewrite Hd in Hd'; injection Hd' as <- <-;
    try (exfalso; match goal with A : forall m, ~ link_gives _ _ _ m, B : link_gives _ _ _ _ |- _ => exact (A _ B) end);
    try (pose proof (locations_unique _ _ _ _ Ls Ls'); subst ls'); try reflexivity; try (exfalso; eauto; fail).
  - eapply link_gives_unique; eauto.
  - eauto.
Qed.
Print Assumptions c53_unique.

(** For a local CSV file it is FILE-metadata.json if that exists, or else a description with the name of the file *)
Theorem c53_local w url t o : ~ remote url -> document w url t -> wb_json w t = None ->
  csvw_open w url None = Ok o ->
  op_no_header o = false /\
  match wb_file w (url ++ lit "-metadata.json") with
  | Some t' => wb_json w t' = Some (JObj (op_md o))
  | None => op_md o = [(lit "@context", JStr (lit "http://www.w3.org/ns/csvw")); (lit "url", JStr (wb_name w url)); (lit "@base", JStr (wb_path w url))]
  end.
Proof.
  intros R D J H. pose proof (proj2 (is_url_false _) R) as U. apply open_inv in H as (j & md & nh & G & M & -> & N & _ & _ & _).
  rewrite (get_json_document _ _ _ D), J in G. apply Ok_inj in G; subst j.
  unfold locate_metadata, fallback in M. rewrite U in M, N. split; [rewrite N; apply andb_false_r|].
  destruct (wb_file w (url ++ lit "-metadata.json")) as [t'|].
  - destruct (wb_json w t') as [m|]; [|discriminate]. apply Ok_inj in M. injection M as -> _. reflexivity.
  - apply Ok_inj in M. injection M as <- _. reflexivity.
Qed.
Print Assumptions c53_local.

(** An explicitly given metadata document, or a URL that is itself a JSON document, is used as it is: nothing else is looked at *)
Theorem c53_explicit w url mu t md : document w (match mu with Some (c :: u) => c :: u | _ => url end) t -> wb_json w t = Some md ->
  (forall o, csvw_open w url mu = Ok o -> md = JObj (op_md o) /\ op_no_header o = false) /\
  (forall w' t', document w' (match mu with Some (c :: u) => c :: u | _ => url end) t' -> wb_json w' t' = Some md -> csvw_open w' url mu = csvw_open w url mu).
Proof.
  intros D J. split.
  - intros o H. apply open_inv in H as (j & md' & nh & G & M & -> & N & _ & _ & _).
    pose proof (get_json_document _ _ _ D) as X. rewrite J in X. assert (Q : Ok (Some md) = Ok j) by (etransitivity; [symmetry; exact X|exact G]).
    apply Ok_inj in Q; subst j. destruct M as [-> ->]. split; [reflexivity|].
    rewrite N, andb_false_r. apply andb_false_r.
  - intros w' t' D' J'. unfold csvw_open.
    pose proof (get_json_document _ _ _ D) as X. pose proof (get_json_document _ _ _ D') as X'. rewrite J in X. rewrite J' in X'.
    match goal with |- bind ?a _ = bind ?b _ => assert (Y : a = Ok (Some md)) by exact X'; assert (Z : b = Ok (Some md)) by exact X; rewrite Y, Z end. reflexivity.
Qed.
Print Assumptions c53_explicit.

(** Whatever is opened has the CSVW context, and is a group exactly if it has tables, at least one;
    no_metadata is set exactly if there is nothing but @context and url *)
Theorem c53_checked w url mu o : csvw_open w url mu = Ok o ->
  (exists c, dget str_eqb (op_md o) (lit "@context") = Some c /\
    match c with
    | JStr s => contains (lit "http://www.w3.org/ns/csvw") s = true
    | JList l => In (JStr (lit "http://www.w3.org/ns/csvw")) l
    | JObj kvs => In (lit "http://www.w3.org/ns/csvw") (map fst kvs)
    | _ => False
    end) /\
  (if op_group o then exists t ts, dget str_eqb (op_md o) (lit "tables") = Some (JList (t :: ts)) else dget str_eqb (op_md o) (lit "tables") = None) /\
  (op_nometa o = true <-> forall k, In k (map fst (op_md o)) <-> k = lit "@context" \/ k = lit "url").
Proof.
  intros H. apply open_inv in H as (j & md & nh & _ & _ & _ & _ & C & T & N). split; [|split].
  - destruct (dget str_eqb (op_md o) (lit "@context")) as [c|] eqn:E; [|discriminate].
    exists c. split; [reflexivity|]. cbn in C. destruct c; try discriminate.
    + apply Ok_inj in C. exact C.
    + apply Ok_inj in C. apply existsb_exists in C as (x & X & E'). destruct x; try discriminate. apply str_eqb_eq in E'. subst. exact X.
    + apply Ok_inj in C. apply str_mem_In. exact C.
  - destruct T as [[-> T]|[-> T]]; exact T.
  - rewrite N, !andb_true_iff, forallb_forall, !str_mem_In. split.
    + intros [[A B] D] k. split; [|intros [->| ->]; auto]. intros K. apply A in K. apply str_mem_In in K as [<-|[<-|[]]]; auto.
    + intros A. split; [split|]; [|apply A; auto|apply A; auto]. intros k K. apply str_mem_In. apply A in K as [->| ->]; cbn; auto.
Qed.
Print Assumptions c53_checked.

(** Opening succeeds for a remote CSV file if all requests are answered, the Link header (if any) has a type and a URL that
    gives a JSON document, all JSON documents have the expected shape and @context, and groups have tables *)
Definition proper (md : json) : Prop :=
  shaped md /\ exists kvs, md = JObj kvs /\ dget str_eqb kvs (lit "@context") = Some (JStr (lit "http://www.w3.org/ns/csvw")) /\ dget str_eqb kvs (lit "tables") <> Some (JList []).
Lemma proper_opens w url mu j mn kvs : get_json w (match mu with Some (c :: u) => c :: u | _ => url end) = Ok j ->
  match j with Some md => mn = (md, false) | None => locate_metadata w url = Ok mn end -> fst mn = JObj kvs -> proper (fst mn) -> exists o, csvw_open w url mu = Ok o.
Proof.
  intros G M E ((kvs' & Q & T & _) & kvs'' & Q' & C & NE). unfold csvw_open.
  match goal with |- exists o, bind ?a _ = _ => assert (Y : a = Ok j) by exact G; rewrite Y end. cbn [bind].
  assert (X : match j with Some md => Ok (md, false) | None => locate_metadata w url end = Ok mn) by (destruct j; [rewrite M; reflexivity|exact M]).
  rewrite X. cbn [bind]. rewrite E. rewrite E in Q, Q'. injection Q as <-. injection Q' as <-. rewrite C. cbn [getdef has_context].
  change (contains context (lit "http://www.w3.org/ns/csvw")) with true. cbn [bind].
  destruct T as [T|(ts & T)]; rewrite T; [eauto|]. destruct ts; [congruence|eauto].
Qed.
Theorem c53_total w url t ct desc : remote url -> document w url t -> wb_json w t = None ->
  wb_head w url = Ok (ct, desc) ->
  (forall u, exists r, wb_get w u = Ok r) -> (forall l, exists u, wb_expand w l url = Ok u) ->
  (forall t' md, wb_json w t' = Some md -> proper md) ->
  match desc with
  | Some (p :: ps) => exists ty u t' md, dget str_eqb (p :: ps) (lit "type") = Some ty /\ dget str_eqb (p :: ps) (lit "url") = Some u /\
      document w (wb_join w url u) t' /\ wb_json w t' = Some md
  | _ => True
  end -> exists o, csvw_open w url None = Ok o.
Proof.
  intros R0 D J Hd G X P L. pose proof (proj2 (is_url_iff _) R0) as U.
  assert (exists mn, locate_metadata w url = Ok mn /\ proper (fst mn)) as (mn & M & PM).
  { unfold locate_metadata. rewrite U, Hd. cbn [bind fst snd].
    assert (FB : proper (JObj (fallback w url))).
    { unfold fallback; rewrite U. split.
      - eexists. split; [reflexivity|]. split; [left; reflexivity|]. intros t' (kvs & Q & [[_ ->]|(ts & T & _)]).
        + eexists; eexists; split; reflexivity.
        + injection Q as <-. discriminate.
      - eexists. split; [reflexivity|]. split; [reflexivity|discriminate]. }
    assert (exists m, linked w url desc = Ok m /\ (forall md, m = Some md -> proper md)) as (m & Lm & Lp).
    { unfold linked. destruct desc as [[|p ps]|]; [eexists; split; [reflexivity|discriminate]| |eexists; split; [reflexivity|discriminate]].
      destruct L as (ty & u & t' & md & T & Ud & D' & J'). rewrite T.
      destruct (str_mem ty json_types); [|eexists; split; [reflexivity|discriminate]].
      rewrite Ud, (get_json_document _ _ _ D'), J'. cbn [bind].
      destruct (describes_total md url) as (b & B); [apply (P _ _ J')|]. rewrite B. cbn [bind].
      eexists; split; [reflexivity|]. destruct b; [|discriminate]. intros ? [= <-]. eauto. }
    rewrite Lm. cbn [bind]. destruct m as [md|]; [eexists; split; [reflexivity|]; cbn; auto|].
    unfold locations. destruct (G (wb_join w url (lit "/.well-known/csvm"))) as (r & R). rewrite R. cbn [bind].
    generalize (split [10%N] (if (fst r =? 200)%Z then snd r else default_locations)); intros ls.
    assert (exists m, at_locations w url ls = Ok m /\ (forall md, m = Some md -> proper md)) as (m & Am & Ap).
    { induction ls as [|l ls (m & IH & IP)]; [eexists; split; [reflexivity|discriminate]|]. cbn [at_locations].
      unfold at_location. destruct (X l) as (u & E). rewrite E. cbn [bind]. destruct (G (wb_join w url u)) as (r' & R'). rewrite R'. cbn [bind].
      destruct (fst r' =? 200)%Z; [|cbn [bind]; eauto]. destruct (wb_json w (snd r')) as [md|] eqn:J'; [|cbn [bind]; eauto].
      destruct (describes_total md url) as (b & B); [apply (P _ _ J')|]. rewrite B. cbn [bind]. destruct b; [|cbn [bind]; eauto].
      eexists; split; [reflexivity|]. intros ? [= <-]. eauto. }
    rewrite Am. cbn [bind]. destruct m as [md|]; eexists; (split; [reflexivity|]); cbn; auto. }
  destruct PM as (S & kvs & Q & PC).
  eapply proper_opens with (j := None) (mn := mn) (kvs := kvs); eauto.
  - rewrite (get_json_document _ _ _ D), J. reflexivity.
  - split; eauto.
Qed.
Print Assumptions c53_total.


(** *** A concrete web *)
Definition url0 : pystr := lit "http://e.org/d/a.csv".
Definition md0 (u : pystr) : json := JObj [(lit "@context", JStr (lit "http://www.w3.org/ns/csvw")); (lit "url", JStr u); (lit "x", JInt 1)].
Definition w53 : web := {|
  wb_head u := Ok (lit "text/csv; header = absent", Some [(lit "url", lit "m1"); (lit "type", lit "application/json")]);
  wb_get u := if str_eqb u url0 then Ok (200%Z, lit "a,b") else if str_eqb u (lit "http://e.org/d/m1") then Ok (200%Z, lit "J1")
              else if str_eqb u (lit "http://e.org/d/m3") then Ok (200%Z, lit "J3")
              else if str_eqb u (lit "http://e.org/d//.well-known/csvm") then Ok (200%Z, lit "m2" ++ [10] ++ lit "m3" ++ [10] ++ lit "m1") else Ok (404%Z, lit "J3");
  wb_json t := if str_eqb t (lit "J1") then Some (md0 (lit "b.csv")) else if str_eqb t (lit "J3") then Some (md0 (lit "../a.csv")) else None;
  wb_join b s := if startswith (lit "http") s then s else lit "http://e.org/d/" ++ s;
  wb_expand t u := Ok t;
  wb_file u := None; wb_path u := u; wb_name u := u |}.
(** The linked document is about another file, the first location does not answer, the second one is used *)
Example c53_nonvacuous :
  csvw_open w53 url0 None = Ok {| op_md := [(lit "@context", JStr (lit "http://www.w3.org/ns/csvw")); (lit "url", JStr (lit "../a.csv")); (lit "x", JInt 1)];
    op_group := false; op_nometa := false; op_no_header := true |} /\
  remote url0 /\ document w53 url0 (lit "a,b") /\ wb_json w53 (lit "a,b") = None.
Proof.
  assert (R : remote url0) by (eexists; left; reflexivity).
  split; [vm_compute; reflexivity|]. split; [exact R|]. split; [|reflexivity]. left. split; [exact R|]. exists 200%Z. reflexivity.
Qed.
(** ... and the hypotheses of c53_total hold *)
Example c53_total_nonvacuous : (forall u, exists r, wb_get w53 u = Ok r) /\ (forall t md, wb_json w53 t = Some md -> proper md).
Proof.
  split.
  - intros u. cbn [wb_get w53]. repeat (destruct (str_eqb _ _); [eauto|]). eauto.
  - assert (P : forall u, proper (md0 u)).
    { intros u. split.
      - eexists; split; [reflexivity|]. split; [left; reflexivity|]. intros t (kvs & Q & [[_ ->]|(ts & T & _)]).
        + eexists; eexists; split; reflexivity.
        + injection Q as <-. discriminate.
      - eexists; split; [reflexivity|]. split; [reflexivity|discriminate]. }
    intros t md. cbn [wb_json w53]. destruct (str_eqb _ _); [intros [= <-]; auto|]. destruct (str_eqb _ _); [intros [= <-]; auto|discriminate].
Qed.

(** *** What does not hold *)
(** A Link header without type stops the discovery with an error, although default locations would do *)
Theorem c53_link_without_type_refuted : exists w url t, remote url /\ document w url t /\ wb_json w t = None /\
  (forall u, exists r, wb_get w u = Ok r) /\ (forall t md, wb_json w t = Some md -> proper md) /\
  csvw_open w url None = Err KeyError.
Proof.
  exists {| wb_head := fun u => Ok ([], Some [(lit "url", lit "m1"); (lit "rel", lit "describedby")]); wb_get := wb_get w53; wb_json := wb_json w53;
            wb_join := wb_join w53; wb_expand := wb_expand w53; wb_file := wb_file w53; wb_path := wb_path w53; wb_name := wb_name w53 |}, url0, (lit "a,b").
  destruct c53_total_nonvacuous as [A B]. assert (R : remote url0) by (eexists; left; reflexivity).
  split; [exact R|]. split; [left; split; [exact R|exists 200%Z; reflexivity]|]. split; [reflexivity|].
  split; [exact A|]. split; [exact B|]. vm_compute. reflexivity.
Qed.
Print Assumptions c53_link_without_type_refuted.

(** A CSV file that happens to be a JSON document, such as a file with the single cell 1, cannot be opened *)
Theorem c53_csv_that_is_json_refuted w url z : document w url (lit "1") -> wb_json w (lit "1") = Some (JInt z) ->
  csvw_open w url None = Err AttributeError.
Proof. intros D J. unfold csvw_open. rewrite (get_json_document _ _ _ D), J. reflexivity. Qed.
Print Assumptions c53_csv_that_is_json_refuted.

(** The context need only contain the URL of the CSVW context *)
Theorem c53_context_is_substring_refuted : exists w url o, csvw_open w url None = Ok o /\ dget str_eqb (op_md o) (lit "@context") = Some (JStr (lit "http://www.w3.org/ns/csvw#x")).
Proof.
  exists {| wb_head := wb_head w53; wb_get := wb_get w53; wb_json := fun t => Some (JObj [(lit "@context", JStr (lit "http://www.w3.org/ns/csvw#x")); (lit "url", JStr [])]);
            wb_join := wb_join w53; wb_expand := wb_expand w53; wb_file := wb_file w53; wb_path := wb_path w53; wb_name := wb_name w53 |}, url0.
  eexists. split; [vm_compute; reflexivity|reflexivity].
Qed.
Print Assumptions c53_context_is_substring_refuted.

(** FILE-metadata.json is used for a local file although it refers to another one, and a local file without any metadata does not
    count as having no metadata *)
Definition wlocal (md : option pystr) : web := {|
  wb_head := wb_head w53; wb_get := wb_get w53; wb_join := wb_join w53; wb_expand := wb_expand w53; wb_path := wb_path w53; wb_name := wb_name w53;
  wb_json := wb_json w53; wb_file u := if str_eqb u (lit "c.csv") then Some (lit "a,b") else md |}.
Theorem c53_local_unchecked_refuted : exists o, csvw_open (wlocal (Some (lit "J1"))) (lit "c.csv") None = Ok o /\ ~ refers (JObj (op_md o)) (lit "c.csv").
Proof.
  eexists. split; [vm_compute; reflexivity|]. cbn [op_md]. intros R.
  match type of R with refers ?md ?u => assert (X : describes md u = Ok false) by (vm_compute; reflexivity) end.
  apply (describes_ok _ _ _ X) in R. discriminate.
Qed.
Print Assumptions c53_local_unchecked_refuted.
Theorem c53_local_no_metadata_refuted : exists o, csvw_open (wlocal None) (lit "c.csv") None = Ok o /\ op_nometa o = false.
Proof. eexists. split; [vm_compute; reflexivity|reflexivity]. Qed.
Print Assumptions c53_local_no_metadata_refuted.
(** For a remote file without any metadata it does *)
Theorem c53_remote_no_metadata w url t o : remote url -> document w url t -> wb_json w t = None ->
  csvw_open w url None = Ok o -> (op_md o = [(lit "@context", JStr (lit "http://www.w3.org/ns/csvw")); (lit "url", JStr url)]) -> op_nometa o = true.
Proof.
  intros _ _ _ H E. destruct (c53_checked _ _ _ _ H) as (_ & _ & N). apply N. intros k. rewrite E. cbn. intuition congruence.
Qed.
Print Assumptions c53_remote_no_metadata.
