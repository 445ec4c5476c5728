(** Property theorems about the database schema (C37, C38). *)
From Coq Require Import Permutation.
From Verif Require Import PyStr Dsv Group Db DbSpec DbProofs DbProofs2.

(** *** C37: SQL table order *)
(** Whenever a schema is computed, its tables have distinct names and each comes after those it refers to, itself
    aside; each table of the group is there, and nothing else but association tables. *)
Theorem c37_order drop ts l : schema drop ts = Ok l ->
  NoDup (map ts_name l) /\ ordered l /\
  (forall t, In t ts -> In (dt_name t) (map ts_name l)) /\
  exists ss, mapM (from_table_metadata drop) (map snd (dtables ts)) = Ok ss /\ (forall s, In s l -> In s (wanted ss)) /\
  (* and if names do not clash, all wanted tables are there *)
  (no_name_clash ss -> forall s, In s l <-> In s (wanted ss)).
Proof.
  intros H. destruct (schema_sound 100 drop ts l H) as (ss & d & M & <- & P & N & O & _).
  assert (Pl : forall s, In s l <-> In s (map snd (dict_of ss))).
  { intros s. split; apply Permutation_in; [exact P|apply Permutation_sym, P]. }
  destruct (dict_of_spec ss) as (K & A & C). destruct (dtables_spec ts) as (_ & F & G).
  split; [exact N|]. split; [exact O|]. split.
  - intros t Ht. apply G in Ht. apply in_map_iff in Ht. destruct Ht as (x & Ex & Hx). rewrite <- Ex.
    assert (E : In (fst x) (map ts_name ss)).
    { rewrite (mapM_names _ _ _ M), map_map, (proj1 (F x Hx)). apply (in_map (fun x => dt_name (snd x))), Hx. }
    apply in_map_iff in E. destruct E as (s & <- & Hs).
    eapply Permutation_in; [apply Permutation_map, Permutation_sym, P|]. apply C. apply in_flat_map. exists s. split; [exact Hs|left; reflexivity].
  - exists ss. split; [exact M|]. split.
    + intros s Hs. apply Pl in Hs. apply in_map_iff in Hs. destruct Hs as (x & <- & Hx). apply A, Hx.
    + intros NC s. rewrite Pl. apply dict_of_wanted, NC.
Qed.
Print Assumptions c37_order.

(** A schema is computed exactly if the references are acyclic, no table is missing, and there are at most 100
    tables; otherwise a ValueError is raised. *)
Theorem c37_when drop ts ss tables :
  mapM (from_table_metadata drop) (map snd (dtables ts)) = Ok ss ->
  no_name_clash ss ->
  NoDup (map ts_name tables) -> (forall s, In s tables <-> In s (wanted ss)) ->
  (acyclic tables /\ closed tables /\ (length tables <= 100)%nat -> exists l, schema drop ts = Ok l) /\
  (~ (acyclic tables /\ closed tables /\ (length tables <= 100)%nat) -> schema drop ts = Err ValueError).
Proof.
  intros M NC N Hin. pose proof (schema_total 100 drop ts ss M) as T. cbv zeta in T.
  assert (P : Permutation tables (map snd (dict_of ss))).
  { apply NoDup_Permutation.
    - apply NoDup_map_inv in N. exact N.
    - destruct (dict_of_spec ss) as (K & _). pose proof (keyed_names _ K) as E. destruct K as [K _]. rewrite <- E in K. apply NoDup_map_inv in K. exact K.
    - intros s. rewrite Hin. symmetry. apply dict_of_wanted, NC. }
  assert (X : acyclic tables /\ closed tables /\ (length tables <= 100)%nat <->
    acyclic (map snd (dict_of ss)) /\ closed (map snd (dict_of ss)) /\ (length (map snd (dict_of ss)) <= 100)%nat).
  { rewrite (Permutation_length P). split; intros (A & B & C); (split; [eapply acyclic_perm; [|exact A]|split; [eapply closed_perm; [|exact B]|exact C]]);
    first [exact P|apply Permutation_sym, P]. }
  split.
  - intros H. apply T, X, H.
  - intros H. destruct (schema drop ts) as [l|e] eqn:E.
    + elim H. apply X, T. exists l. exact E.
    + f_equal. eapply schema_err; eassumption.
Qed.
Print Assumptions c37_when.

(** In particular with more than 100 tables there is never a schema, whatever the foreign keys. *)
Theorem c37_too_many drop ts : (100 < length (dtables ts))%nat -> forall l, schema drop ts <> Ok l.
Proof.
  intros H l E. destruct (schema_sound 100 drop ts l E) as (ss & d & M & <- & P & _ & _ & L).
  pose proof (dict_of_many _ _ _ M) as X. rewrite <- (Permutation_length P) in X.
  exact (Nat.lt_irrefl _ (Nat.lt_le_trans _ _ _ H (Nat.le_trans _ _ _ X L))).
Qed.
Print Assumptions c37_too_many.

(** the n-th of many tables without foreign keys *)
Definition tbl (n : pystr) (cols : list pystr) (pk : list pystr) (fks : list dfk) : dtable :=
  {| dt_name := n; dt_cols := map (fun c => {| dc_header := c; dc_separator := None; dc_inh_separator := None; dc_required := false; dc_datatype := None |}) cols;
     dt_fks := fks; dt_pk := pk |}.
Definition fk (cols : list pystr) (r : pystr) (rcols : list pystr) : dfk := {| dk_cols := cols; dk_schema := false; dk_resource := r; dk_refcols := rcols |}.
Definition many (n : nat) : list dtable := map (fun i => tbl [N.of_nat i] [lit "ID"] [lit "ID"] []) (seq 65 n).
Example c37_nonvacuous_many :
  (exists l, schema true (many 100) = Ok l) /\ (100 < length (dtables (many 101)))%nat /\ schema true (many 101) = Err ValueError.
Proof. split; [eexists; vm_compute; reflexivity|]. split; [vm_compute; repeat constructor|vm_compute; reflexivity]. Qed.

(** four tables, one with a list-valued foreign key, given in the wrong order *)
Definition list_col (c : pystr) : dcol := {| dc_header := c; dc_separator := Some (lit " "); dc_inh_separator := Some (lit " "); dc_required := false; dc_datatype := None |}.
Definition books : dtable := {| dt_name := lit "book"; dt_cols := dt_cols (tbl [] [lit "ID"; lit "Shelf"] [] []) ++ [list_col (lit "Authors")];
  dt_fks := [fk [lit "Authors"] (lit "author") [lit "ID"]; fk [lit "Shelf"] (lit "shelf") [lit "ID"]; fk [lit "ID"] (lit "book") [lit "ID"]]; dt_pk := [lit "ID"] |}.
Definition library : list dtable :=
  [books; tbl (lit "shelf") [lit "ID"; lit "room"] [lit "ID"] [fk [lit "room"] (lit "room") [lit "ID"]];
   tbl (lit "room") [lit "ID"] [lit "ID"] []; tbl (lit "author") [lit "ID"] [lit "ID"] []].
Example c37_nonvacuous : exists l, schema false library = Ok l /\
  map ts_name l = [lit "room"; lit "shelf"; lit "book"; lit "author"; lit "book_author"].
Proof. eexists. split; vm_compute; reflexivity. Qed.
Example c37_when_nonvacuous : exists ss tables,
  mapM (from_table_metadata false) (map snd (dtables library)) = Ok ss /\ no_name_clash ss /\ NoDup (map ts_name tables) /\
  (forall s, In s tables <-> In s (wanted ss)) /\ acyclic tables /\ closed tables /\ (length tables <= 100)%nat.
Proof.
  destruct (mapM (from_table_metadata false) (map snd (dtables library))) as [ss|] eqn:M; [|vm_compute in M; discriminate M].
  assert (NC : no_name_clash ss).
  { vm_compute in M. apply Ok_inj in M. subst ss. intros a b Ha Hb. unfold wanted in Ha, Hb. cbn [flat_map map app ts_m2m In] in Ha, Hb.
    destruct Ha as [<-|[<-|[<-|[<-|[<-|[]]]]]], Hb as [<-|[<-|[<-|[<-|[<-|[]]]]]]; intros E; first [reflexivity|discriminate E]. }
  destruct (schema false library) as [l|] eqn:E; [|vm_compute in E; discriminate E].
  destruct (c37_order _ _ _ E) as (N & O & _ & ss' & M' & _ & W). rewrite M in M'. apply Ok_inj in M'. subst ss'.
  exists ss, l. split; [reflexivity|]. split; [exact NC|]. split; [exact N|]. split; [apply W, NC|].
  split; [apply ordered_acyclic; assumption|]. split; [apply ordered_closed, O|]. vm_compute in E. apply Ok_inj in E. subst l. cbn. repeat constructor.
Qed.
Example c37_cycle : schema true [tbl (lit "a") [lit "x"] [lit "x"] [fk [lit "x"] (lit "b") [lit "x"]];
                                 tbl (lit "b") [lit "x"] [lit "x"] [fk [lit "x"] (lit "a") [lit "x"]]] = Err ValueError.
Proof. vm_compute. reflexivity. Qed.

(** "every table exactly once" needs the condition on names: an association table replaces a table of that name *)
Theorem c37_name_clash_refuted :
  exists ts t, In t ts /\ exists l, schema true ts = Ok l /\ forall s, from_table_metadata true t = Ok s -> ~ In s l.
Proof.
  exists (tbl (lit "book_author") [lit "year"] [] [] :: library), (tbl (lit "book_author") [lit "year"] [] []).
  split; [left; reflexivity|]. eexists. split; [vm_compute; reflexivity|].
  intros s E. vm_compute in E. apply Ok_inj in E. subst s. intros H. repeat (destruct H as [H|H]; [discriminate H|]). destruct H.
Qed.
Print Assumptions c37_name_clash_refuted.

(** *** C38: composite foreign keys *)
(** the foreign keys that become FOREIGN KEY clauses *)
Definition becomes_clause (drop : bool) (t : dtable) (k : dfk) : Prop :=
  dk_schema k = false /\ ~ (exists c, dk_cols k = [c] /\ In c (list_valued t)) /\ ~ (drop = true /\ dk_resource k = dt_name t).
Theorem c38_clauses drop t s : from_table_metadata drop t = Ok s ->
  (forall k, In k (dt_fks t) -> becomes_clause drop t k ->
     exists cs rs, In (cs, dk_resource k, rs) (ts_fks s) /\ Permutation cs (dk_cols k) /\ Permutation rs (dk_refcols k)) /\
  (* and they relate the same columns exactly if sorting keeps the columns together *)
  (forall cs r rs, In (cs, r, rs) (ts_fks s) -> exists k, In k (dt_fks t) /\ becomes_clause drop t k /\ dk_resource k = r /\
     (NoDup (dk_cols k) -> NoDup (dk_refcols k) -> length (dk_cols k) = length (dk_refcols k) ->
      ((forall row target : pystr -> bool, refers_to cs rs row target <-> refers_to (dk_cols k) (dk_refcols k) row target) <->
       monotone (dk_cols k) (dk_refcols k)))).
Proof.
  unfold from_table_metadata. destruct (add_fks _ _ _ _ _ _) as [r|] eqn:E; [|discriminate]. cbn [bind]. intros H. apply Ok_inj in H. subst s. cbn [ts_fks].
  apply add_fks_fks in E. cbn [fst app] in E. rewrite E. clear E r. split.
  - intros k Hk (B1 & B2 & B3). exists (sort_strs (dk_cols k)), (sort_strs (dk_refcols k)).
    split; [|split; apply sort_strs_perm]. apply in_flat_map. exists k. split; [exact Hk|]. rewrite B1.
    assert (X : match dk_cols k with [c] => str_mem c (list_valued t) | _ => false end = false).
    { destruct (dk_cols k) as [|c [|? ?]]; try reflexivity. apply str_mem_false. intros Hc. apply B2. exists c. auto. }
    rewrite X. assert (Y : drop && str_eqb (dk_resource k) (dt_name t) = false).
    { destruct drop; [|reflexivity]. apply str_eqb_neq. intros Hc. apply B3. auto. }
    rewrite Y. left. reflexivity.
  - intros cs r rs Hin. apply in_flat_map in Hin. destruct Hin as (k & Hk & Hin). exists k. split; [exact Hk|].
    destruct (dk_schema k) eqn:B1; [destruct Hin|].
    destruct (match dk_cols k with [c] => str_mem c (list_valued t) | _ => false end) eqn:B2; [destruct Hin|].
    destruct (drop && str_eqb (dk_resource k) (dt_name t)) eqn:B3; [destruct Hin|]. destruct Hin as [Hin|[]]. injection Hin as <- <- <-.
    split; [|split; [reflexivity|]].
    + split; [exact B1|]. split.
      * intros (c & Ec & Hc). rewrite Ec in B2. apply str_mem_false in B2. contradiction.
      * intros [-> Er]. rewrite Er, str_eqb_refl in B3. discriminate B3.
    + intros N N' L. rewrite <- (same_pairs_iff _ _ N N' L). 
      pose proof (Permutation_NoDup (Permutation_sym (sort_strs_perm _)) N) as Ns. pose proof (Permutation_NoDup (Permutation_sym (sort_strs_perm _)) N') as Ns'.
      apply same_meaning; auto.
      * rewrite (Permutation_length (sort_strs_perm _)), (Permutation_length (sort_strs_perm _)). exact L.
      * intros x. split; apply Permutation_in; [apply sort_strs_perm|apply Permutation_sym, sort_strs_perm].
Qed.
Print Assumptions c38_clauses.
(** A key of one column is always kept: *)
Theorem c38_single drop t s k c r : from_table_metadata drop t = Ok s -> In k (dt_fks t) -> becomes_clause drop t k ->
  dk_cols k = [c] -> dk_refcols k = [r] -> In ([c], dk_resource k, [r]) (ts_fks s).
Proof.
  intros H Hk B Ec Er. destruct (proj1 (c38_clauses drop t s H) k Hk B) as (cs & rs & Hin & P1 & P2).
  rewrite Ec in P1. rewrite Er in P2. apply Permutation_sym, Permutation_length_1_inv in P1. apply Permutation_sym, Permutation_length_1_inv in P2. subst. exact Hin.
Qed.
Print Assumptions c38_single.

(** In general a composite key is not: (a, b) -> (y, x) becomes (a, b) -> (x, y). *)
Definition crossed : dtable := tbl (lit "t") [lit "a"; lit "b"] [] [fk [lit "a"; lit "b"] (lit "u") [lit "y"; lit "x"]].
Theorem c38_composite_refuted :
  exists s k cs rs, from_table_metadata true crossed = Ok s /\ In k (dt_fks crossed) /\ becomes_clause true crossed k /\
  ts_fks s = [(cs, dk_resource k, rs)] /\
  ~ (forall row target : pystr -> bool, refers_to cs rs row target <-> refers_to (dk_cols k) (dk_refcols k) row target).
Proof.
  exists {| ts_name := lit "t"; ts_cols := map colspec_of (dt_cols crossed); ts_fks := [([lit "a"; lit "b"], lit "u", [lit "x"; lit "y"])]; ts_m2m := []; ts_pk := [] |}.
  eexists _, _, _. split; [vm_compute; reflexivity|]. split; [left; reflexivity|]. split.
  - split; [reflexivity|]. split; [intros (c & E & _); discriminate E|intros [_ E]; discriminate E].
  - split; [reflexivity|]. intros H.
    assert (X : refers_to [lit "a"; lit "b"] [lit "x"; lit "y"] (fun c => str_eqb c (lit "a")) (fun c => str_eqb c (lit "x"))).
    { intros a b [E|[E|[]]]; injection E as <- <-; reflexivity. }
    apply H in X. specialize (X (lit "a") (lit "y") (or_introl eq_refl)). vm_compute in X. discriminate X.
Qed.
Print Assumptions c38_composite_refuted.

(** a composite key that is kept *)
Definition straight : dtable := tbl (lit "t") [lit "b"; lit "a"] [] [fk [lit "b"; lit "a"] (lit "u") [lit "y"; lit "x"]].
Example c38_nonvacuous : exists s, from_table_metadata true straight = Ok s /\
  becomes_clause true straight (fk [lit "b"; lit "a"] (lit "u") [lit "y"; lit "x"]) /\
  ts_fks s = [([lit "a"; lit "b"], lit "u", [lit "x"; lit "y"])] /\ monotone [lit "b"; lit "a"] [lit "y"; lit "x"].
Proof.
  eexists. split; [vm_compute; reflexivity|]. split; [|split; [vm_compute; reflexivity|]].
  - split; [reflexivity|]. split; [intros (c & E & _); discriminate E|intros [_ E]; discriminate E].
  - intros a b a' b' [E|[E|[]]] [E'|[E'|[]]]; injection E as <- <-; injection E' as <- <-; vm_compute; intros X; first [discriminate X|reflexivity].
Qed.
