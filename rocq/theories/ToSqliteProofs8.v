(** Keys of the rows of a table: when rows are in step with the first one (C65). *)
From Coq Require Import Permutation.
From Verif Require Import PyStr Json Dsv DsvProofs4 Datatype Column Schema Table TableSpec TableProofs TableProofs2 TableProofs3 TableProofs4 FrameProofs QuietProofs LaxProofs FrictionlessProofs2 ToSqliteSpec.

Section P.
Variables (sc : scalars value) (expand : pystr -> dict value -> res pystr) (cols : list (tcol value)).
Notation key := (@key_of value).
Lemma cells_keys line hc : forall row j d, NoDup (map fst d ++ map key hc) -> ro_exn (read_cells sc true false line j hc row d) = None ->
  exists vs, ro_dict (read_cells sc true false line j hc row d) = d ++ vs /\ map fst vs = firstn (length row) (map key hc) /\ ro_msgs (read_cells sc true false line j hc row d) = [].
Proof.
  induction hc as [|[k oc] hc IH]; intros row j d Nd H.
  - exists []. destruct row; cbn [read_cells ro_dict ro_msgs length firstn map]; rewrite app_nil_r; repeat split.
  - destruct row as [|v row]; [exists []; destruct oc; cbn [read_cells ro_dict ro_msgs length firstn map]; rewrite app_nil_r; repeat split|].
    assert (X : forall x kk, key (k, oc) = kk -> ro_exn (read_cells sc true false line (S j) hc row (dset str_eqb d kk x)) = None ->
      exists vs, ro_dict (read_cells sc true false line (S j) hc row (dset str_eqb d kk x)) = d ++ vs /\ map fst vs = firstn (length (v :: row)) (map key ((k, oc) :: hc)) /\ ro_msgs (read_cells sc true false line (S j) hc row (dset str_eqb d kk x)) = []).
    { intros x kk Ek Hx. cbn [map] in Nd. rewrite Ek in Nd. assert (Nk : ~ In kk (map fst d)). { apply NoDup_remove_2 in Nd. intros I. apply Nd. apply in_or_app. left. exact I. }
      rewrite (dset_new str_eqb str_eqb_eq) in Hx by exact Nk. rewrite (dset_new str_eqb str_eqb_eq) by exact Nk. destruct (IH row (S j) (d ++ [(kk, x)])) as (vs & E1 & E2 & E3); [|exact Hx|].
      - rewrite map_app, <- app_assoc. exact Nd.
      - exists ((kk, x) :: vs). rewrite E1, <- app_assoc. split; [reflexivity|]. split; [|exact E3]. cbn [length map firstn fst]. rewrite E2, Ek. reflexivity. }
    destruct oc as [c|]; cbn [read_cells] in H |- *.
    + destruct (fst (col_read sc true (tc_st c) v)) as [x|e].
      * cbn [ro_push ro_exn ro_dict ro_msgs app] in *. apply X; [reflexivity|exact H].
      * destruct e; discriminate H.
    + cbn [ro_push ro_exn ro_dict ro_msgs app] in *. apply X; [reflexivity|exact H].
Qed.

(** the row of a line of [n] cells *)
Definition shape (hdr : list pystr) (n : nat) (d : dict value) : Prop :=
  exists vs virt, d = vs ++ map (fun k => (k, PNone)) (filter (fun k => negb (str_mem k (firstn n hdr))) (colnames cols)) ++ virt /\
    map fst vs = firstn n hdr /\ map fst virt = map fst (virtualcols cols).
Definition fits (hdr : list pystr) : Prop :=
  NoDup hdr /\ NoDup (colnames cols) /\ NoDup (map fst (virtualcols cols)) /\ (forall k, In k (map fst (virtualcols cols)) -> ~ In k hdr /\ ~ In k (colnames cols)).
Lemma process_shape line hc row : fits (map key hc) -> ro_exn (process_row sc expand true false cols line hc row) = None ->
  shape (map key hc) (length row) (ro_dict (process_row sc expand true false cols line hc row)) /\ ro_msgs (process_row sc expand true false cols line hc row) = [].
Proof.
  intros (N1 & N2 & N3 & N4) H. pose proof H as H'. apply process_dict in H'. destruct H' as (E0 & A & M). destruct (cells_keys line hc row 0 [] N1 E0) as (vs & E1 & E2 & E3). cbn [app] in E1.
  assert (Mm : ro_msgs (process_row sc expand true false cols line hc row) = []).
  { unfold process_row in H |- *. rewrite E0 in H |- *. destruct (missing_cells line hc row _) as [|m ms]; cbn [negb andb] in H |- *; [|discriminate H]. destruct (add_virtual _ _ _ _); [|discriminate H]. cbn [ro_msgs]. rewrite E3. reflexivity. }
  split; [|exact Mm]. clear M Mm H. rewrite E1 in A. rewrite setdefault_new in A by exact N2. unfold absent in A. rewrite E2 in A.
  assert (Fi : forall k, In k (firstn (length row) (map key hc)) -> In k (map key hc)). { intros k I. rewrite <- (firstn_skipn (length row) (map key hc)). apply in_or_app. left. exact I. }
  apply add_virtual_new in A.
  - destruct A as (virt & -> & Ev & _). exists vs, virt. rewrite <- app_assoc. split; [reflexivity|]. split; [exact E2|exact Ev].
  - rewrite map_app, E2, map_map, map_id. apply NoDup_app2; [apply NoDup_app2; [|apply NoDup_filter, N2|]|exact N3|].
    + rewrite <- (firstn_skipn (length row) (map key hc)) in N1. clear -N1. induction (firstn (length row) (map key hc)) as [|a l IH]; [constructor|]. inversion N1; subst. constructor; [|apply IH; assumption]. intros I. apply H1. apply in_or_app. left. exact I.
    + intros k Ik If. apply filter_In in If. destruct If as [_ If]. apply str_mem_In in Ik. rewrite Ik in If. discriminate If.
    + intros k Ik Iv. destruct (N4 k Iv) as [A1 A2]. apply in_app_or in Ik. destruct Ik as [Ik|Ik]; [apply A1, Fi, Ik|]. apply filter_In in Ik. exact (A2 (proj1 Ik)).
Qed.
Lemma iter_shape hc data endr : hc <> [] -> fits (map key hc) -> io_end (iter_rows sc expand true false cols hc data endr) = None ->
  Forall2 (fun lr yr => shape (map key hc) (length (snd lr)) (snd yr)) data (io_rows (iter_rows sc expand true false cols hc data endr)).
Proof.
  intros Hc F. induction data as [|[line row] data IH]; intros H; cbn [iter_rows] in *; [constructor|]. assert (E : ensure_cols hc row = hc) by (destruct hc; [contradiction Hc|]; reflexivity). rewrite E in *.
  destruct (ro_exn (process_row sc expand true false cols line hc row)) eqn:Ex; [discriminate H|]. destruct (process_shape line hc row F Ex) as (Sh & Ms). cbn [io_cons io_rows io_end] in *. rewrite Ms. constructor; [exact Sh|apply IH, H].
Qed.

Lemma firstn_min {A} n (l : list A) : firstn n l = firstn (Nat.min n (length l)) l.
Proof. destruct (Nat.le_ge_cases n (length l)); [rewrite Nat.min_l by assumption; reflexivity|]. rewrite Nat.min_r by assumption. rewrite firstn_all, firstn_all2 by assumption. reflexivity. Qed.
Lemma nodup_app_r {A} (a b : list A) : NoDup (a ++ b) -> NoDup b.
Proof. induction a as [|x a IH]; [auto|]. intros H. inversion H; subst. apply IH. assumption. Qed.
Lemma nodup_app_l {A} (a b : list A) : NoDup (a ++ b) -> NoDup a.
Proof. induction a as [|x a IH]; intros H; [constructor|]. inversion H; subst. constructor; [intros I; apply H2, in_or_app; left; exact I|apply IH; assumption]. Qed.
Lemma nodup_app_not {A} (a b : list A) x : NoDup (a ++ b) -> In x a -> ~ In x b.
Proof. induction a as [|y a IH]; intros H I; [destruct I|]. inversion H; subst. destruct I as [->|I]; [intros J; apply H2, in_or_app; right; exact J|apply IH; assumption]. Qed.
Lemma filter_none {A} (f : A -> bool) l : (forall x, In x l -> f x = false) -> filter f l = [].
Proof. induction l as [|a l IH]; intros H; [reflexivity|]. cbn [filter]. rewrite (H a (or_introl eq_refl)). apply IH. intros x I. apply H. right. exact I. Qed.
Lemma filter_all {A} (f : A -> bool) l : (forall x, In x l -> f x = true) -> filter f l = l.
Proof. induction l as [|a l IH]; intros H; [reflexivity|]. cbn [filter]. rewrite (H a (or_introl eq_refl)). f_equal. apply IH. intros x I. apply H. right. exact I. Qed.
Lemma shape_step hdr n0 n d0 d : fits hdr -> (forall h, In h hdr -> In h (colnames cols)) -> shape hdr n0 d0 -> shape hdr n d ->
  hdr = colnames cols \/ (Nat.min n (length hdr) <= Nat.min n0 (length hdr))%nat -> in_step (map fst d0) d.
Proof.
  intros (N1 & N2 & N3 & N4) Sub (vs0 & v0 & E0 & F0 & G0) (vs & v & E & F & G) Hor.
  assert (K0 : map fst d0 = firstn n0 hdr ++ filter (fun k => negb (str_mem k (firstn n0 hdr))) (colnames cols) ++ map fst v). { subst d0. rewrite !map_app, map_map, map_id, F0, G0, G. reflexivity. }
  destruct Hor as [Eh|Le].
  - exists d, [], [], []. cbn [app map]. rewrite !app_nil_r. split; [reflexivity|]. split; [|split; constructor]. rewrite K0. subst d. rewrite !map_app, map_map, map_id, F. cbn [fst].
    assert (Fl : forall m, firstn m hdr ++ filter (fun k => negb (str_mem k (firstn m hdr))) (colnames cols) = hdr).
    { intros m. rewrite <- Eh. rewrite <- (firstn_skipn m hdr) in N1. transitivity (firstn m hdr ++ skipn m hdr); [|apply firstn_skipn]. f_equal. transitivity (filter (fun k => negb (str_mem k (firstn m hdr))) (firstn m hdr ++ skipn m hdr)); [rewrite (firstn_skipn m hdr); reflexivity|]. rewrite filter_app.
      assert (A : filter (fun k => negb (str_mem k (firstn m hdr))) (firstn m hdr) = []).
      { assert (A' : forall x, In x (firstn m hdr) -> negb (str_mem x (firstn m hdr)) = false) by (intros x I; apply str_mem_In in I; rewrite I; reflexivity). apply filter_none, A'. }
      assert (B : filter (fun k => negb (str_mem k (firstn m hdr))) (skipn m hdr) = skipn m hdr).
      { assert (B' : forall x, In x (skipn m hdr) -> negb (str_mem x (firstn m hdr)) = true). { intros x I. assert (Z : str_mem x (firstn m hdr) = false) by (apply str_mem_false; intros J; exact (nodup_app_not _ _ x N1 J I)). rewrite Z. reflexivity. }
        apply filter_all, B'. }
      etransitivity; [apply (f_equal2 (@app _) A B)|reflexivity]. }
    rewrite !app_assoc, !Fl. reflexivity.
  - rewrite (firstn_min n) in E, F. rewrite (firstn_min n0) in K0. set (m := Nat.min n (length hdr)) in *. set (m0 := Nat.min n0 (length hdr)) in *.
    assert (Sp : firstn m0 hdr = firstn m hdr ++ skipn m (firstn m0 hdr)). { rewrite <- (firstn_skipn m (firstn m0 hdr)) at 1. rewrite firstn_firstn, Nat.min_l by exact Le. reflexivity. }
    pose proof N1 as N1'. rewrite <- (firstn_skipn m0 hdr) in N1'. apply nodup_app_l in N1'.
    exists vs, (map (fun k => (k, PNone)) (filter (fun k => negb (str_mem k (firstn m hdr))) (colnames cols))), v, (skipn m (firstn m0 hdr) ++ filter (fun k => negb (str_mem k (firstn m0 hdr))) (colnames cols)).
    split; [exact E|]. split; [rewrite K0, F; rewrite Sp at 1; rewrite <- !app_assoc; reflexivity|]. split.
    + rewrite map_map, map_id. pose proof N1' as N1''. rewrite Sp in N1'. apply NoDup_Permutation; [apply NoDup_filter, N2| |].
      * apply NoDup_app2; [apply (nodup_app_r _ _ N1')|apply NoDup_filter, N2|]. intros k Ik If. apply filter_In in If. destruct If as [_ If]. assert (J : In k (firstn m0 hdr)) by (rewrite Sp; apply in_or_app; right; exact Ik). apply str_mem_In in J. rewrite J in If. discriminate If.
      * intros k. rewrite in_app_iff, !filter_In. assert (Z : forall l, negb (str_mem k l) = true <-> ~ In k l). { intros l. rewrite <- str_mem_In. destruct (str_mem k l); cbn; split; intros X; congruence. } rewrite !Z. rewrite Sp at 2. rewrite in_app_iff. split.
        -- intros [I1 I2]. destruct (in_dec str_eq_dec k (skipn m (firstn m0 hdr))) as [J|J]; [left; exact J|right]. split; [exact I1|]. intros [K|K]; contradiction.
        -- intros [J|[I1 I2]]; [|split; [exact I1|intros K; apply I2; left; exact K]]. split; [|intros K; exact (nodup_app_not _ _ k N1' K J)]. apply Sub. rewrite <- (firstn_skipn m0 hdr). apply in_or_app. left. rewrite Sp. apply in_or_app. right. exact J.
    + clear. apply Forall_forall. intros kv I. apply in_map_iff in I. destruct I as (k & <- & _). reflexivity.
Qed.

Hypothesis (Reg : regular_first cols) (Nh : NoDup (map tc_header cols)).
Lemma header_keys hdr hc : (forall h, In h hdr -> In h (colnames cols)) -> header_cols true cols hdr = Ok hc -> map key hc = hdr.
Proof.
  intros Sub H. unfold header_cols in H. destruct (list_eq_dec str_eq_dec hdr (colnames cols)) as [->|_]; cbn [orb negb andb] in H.
  - rewrite (own_header_cols cols Reg) in H. apply Ok_inj in H. subst hc. rewrite map_map. reflexivity.
  - rewrite andb_false_r in H. cbn [negb] in H. revert hc H. induction hdr as [|h hdr IH]; intros hc H; cbn [mapM] in H; [apply Ok_inj in H; subst; reflexivity|].
    apply bind_inv in H. destruct H as (x & Ex & H). apply bind_inv in H. destruct H as (hc' & Eh & H). apply Ok_inj in H. subst hc. cbn [map]. rewrite (IH (fun h' I => Sub h' (or_intror I)) hc' Eh). f_equal.
    apply bind_inv in Ex. destruct Ex as (oc & Eg & Ex). apply Ok_inj in Ex. subst x. destruct oc as [c|]; [|reflexivity]. apply get_column_spec in Eg. cbn. destruct Eg as (Ic & _ & Eg). symmetry.
    assert (J : In h (map tc_header cols)). { specialize (Sub h (or_introl eq_refl)). unfold colnames in Sub. apply in_map_iff in Sub. destruct Sub as (c' & <- & I'). apply in_map. apply filter_In in I'. apply I'. }
    specialize (Eg J). congruence.
Qed.
End P.
