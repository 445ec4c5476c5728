(** Facts about the store (Sqlite.v). *)
From Coq Require Import QArith.
From Verif Require Import PyStr Dec Group Sql Sqlite.
Open Scope N_scope.

Lemma same_name_iff a b : same_name a b = true <-> ascii_lower a = ascii_lower b.
Proof. unfold same_name. apply str_eqb_eq. Qed.
Lemma same_name_refl a : same_name a a = true.
Proof. apply same_name_iff. reflexivity. Qed.
Lemma same_name_sym a b : same_name a b = same_name b a.
Proof.
  destruct (same_name a b) eqn:E; symmetry.
  - apply same_name_iff in E. apply same_name_iff. congruence.
  - destruct (same_name b a) eqn:F; [|reflexivity]. apply same_name_iff in F. rewrite <- E. symmetry. apply same_name_iff. congruence.
Qed.
Lemma same_name_left a b c : same_name a b = true -> same_name a c = same_name b c.
Proof. intros H. apply same_name_iff in H. unfold same_name. rewrite H. reflexivity. Qed.
Lemma same_name_right a b c : same_name a b = true -> same_name c a = same_name c b.
Proof. intros H. apply same_name_iff in H. unfold same_name. rewrite H. reflexivity. Qed.

Section Fns.
Variable St : store_fns.

Lemma find_table_name n D t : find_table n D = Some t -> same_name (tb_name t) n = true.
Proof. unfold find_table. intros H. apply find_some in H. apply H. Qed.
Lemma find_table_In n D t : find_table n D = Some t -> In t D.
Proof. unfold find_table. intros H. apply find_some in H. apply H. Qed.
Lemma find_table_same n m D : same_name n m = true -> find_table n D = find_table m D.
Proof.
  intros H. unfold find_table. induction D as [|t D IH]; [reflexivity|]. cbn [find].
  rewrite (same_name_right _ _ (tb_name t) H). rewrite IH. reflexivity.
Qed.
Lemma find_add_same n rows D m : same_name n m = true ->
  find_table m (add_rows n rows D) = match find_table m D with Some t => Some (with_rows t (tb_rows t ++ rows)) | None => None end.
Proof.
  intros H. unfold find_table, add_rows. induction D as [|t D IH]; [reflexivity|]. cbn [map find].
  rewrite (same_name_right _ _ (tb_name t) H). destruct (same_name (tb_name t) m) eqn:E.
  - cbn [tb_name with_rows]. rewrite E. reflexivity.
  - rewrite E. exact IH.
Qed.
Lemma find_add_other n rows D m : same_name n m = false -> find_table m (add_rows n rows D) = find_table m D.
Proof.
  intros H. unfold find_table, add_rows. induction D as [|t D IH]; [reflexivity|]. cbn [map find].
  destruct (same_name (tb_name t) n) eqn:E.
  - cbn [tb_name with_rows]. rewrite (same_name_left _ _ m E), H. exact IH.
  - destruct (same_name (tb_name t) m); [reflexivity|exact IH].
Qed.
Lemma add_rows_app n a b D : add_rows n b (add_rows n a D) = add_rows n (a ++ b) D.
Proof.
  unfold add_rows. rewrite map_map. apply map_ext. intros t. destruct (same_name (tb_name t) n) eqn:E.
  - cbn [tb_name with_rows]. rewrite E. unfold with_rows. cbn [tb_name tb_cols tb_pk tb_fks tb_rows]. rewrite app_assoc. reflexivity.
  - rewrite E. reflexivity.
Qed.
Lemma add_rows_nil n D : add_rows n [] D = D.
Proof.
  unfold add_rows. rewrite <- (map_id D) at 2. apply map_ext. intros t. destruct (same_name (tb_name t) n); [|reflexivity].
  destruct t. unfold with_rows. cbn. rewrite app_nil_r. reflexivity.
Qed.
Lemma add_rows_same n m rows D : same_name n m = true -> add_rows n rows D = add_rows m rows D.
Proof. intros H. unfold add_rows. apply map_ext. intros t. rewrite (same_name_right _ _ (tb_name t) H). reflexivity. Qed.

Lemma find_app n D E : find_table n (D ++ E) = match find_table n D with Some t => Some t | None => find_table n E end.
Proof. unfold find_table. induction D as [|t D IH]; [reflexivity|]. cbn [app find]. destruct (same_name (tb_name t) n); [reflexivity|exact IH]. Qed.

(** *** foreign keys look at tables only *)
Lemma fk_holds_ext D D' t r f : find_table (snd (fst f)) D = find_table (snd (fst f)) D' -> fk_holds St D t r f = fk_holds St D' t r f.
Proof. destruct f as [[cols ref] rc]. cbn [fst snd]. intros H. unfold fk_holds. rewrite H. reflexivity. Qed.
Lemma all_fks_ext D D' t r fks : (forall f, In f fks -> find_table (snd (fst f)) D = find_table (snd (fst f)) D') ->
  all_fks St D t r fks = all_fks St D' t r fks.
Proof.
  induction fks as [|f fks IH]; intros H; [reflexivity|]. cbn [all_fks]. rewrite (fk_holds_ext D D' t r f) by (apply H; left; reflexivity).
  rewrite IH; [reflexivity|]. intros g Hg. apply H. right. exact Hg.
Qed.
(** values_of depends on the description of the table only *)
Lemma values_of_rows t rows names r : values_of (with_rows t rows) names r = values_of t names r.
Proof. reflexivity. Qed.
Lemma fk_holds_rows D t rows r f : fk_holds St D (with_rows t rows) r f = fk_holds St D t r f.
Proof. reflexivity. Qed.
Lemma all_fks_rows D t rows r fks : all_fks St D (with_rows t rows) r fks = all_fks St D t r fks.
Proof. induction fks as [|f fks IH]; [reflexivity|]. cbn [all_fks]. rewrite fk_holds_rows, IH. reflexivity. Qed.
Lemma unique_rows t r rows : unique_ok (with_rows t (tb_rows t ++ rows)) r = true -> unique_ok t r = true.
Proof.
  unfold unique_ok. cbn [tb_pk tb_rows with_rows]. destruct (tb_pk t) as [|p pk] eqn:E; [reflexivity|].
  rewrite existsb_app, negb_orb, andb_true_iff. intros [H _]. exact H.
Qed.

(** the integer primary key is given *)
Definition numbered (t : table) (r : row) : Prop := forall i, alias t = Some i -> value_at i r <> SNull.
Lemma number_given t r r' : numbered t r -> number_row t r = Ok r' -> r' = r.
Proof.
  unfold number_row, numbered. destruct (alias t) as [i|]; [|intros _ H; apply Ok_inj in H; auto].
  intros N. specialize (N i eq_refl). destruct (value_at i r); try discriminate; [contradiction|]. intros H. apply Ok_inj in H. auto.
Qed.
Lemma alias_rows t rows : alias (with_rows t rows) = alias t.
Proof. reflexivity. Qed.
Lemma number_rows t rows r : numbered t r -> number_row (with_rows t rows) r = number_row t r.
Proof.
  unfold number_row, numbered. rewrite alias_rows. destruct (alias t) as [i|]; [|reflexivity]. intros N. specialize (N i eq_refl).
  destruct (value_at i r); try reflexivity. contradiction.
Qed.
Lemma bind_ok {A B} (x : res A) (f : A -> res B) y : bind x f = Ok y -> exists a, x = Ok a /\ f a = Ok y.
Proof. destruct x as [a|e]; cbn; intros H; [exists a; auto|discriminate]. Qed.
(** foreign keys do not depend on rows repeated *)
Lemma fk_holds_repeat D n rows r t u f : find_table n D = Some u -> incl rows (tb_rows u) ->
  fk_holds St (add_rows n (rows ++ [r]) D) t r f = fk_holds St (add_rows n [r] D) t r f.
Proof.
  intros F I. destruct f as [[cols ref] rc]. unfold fk_holds. destruct (same_name n ref) eqn:E.
  - rewrite !(find_add_same n _ D ref E), <- (find_table_same n ref D E), F. cbn [is_key with_rows tb_pk].
    change (is_key (with_rows u (tb_rows u ++ rows ++ [r])) rc) with (is_key u rc). change (is_key (with_rows u (tb_rows u ++ [r])) rc) with (is_key u rc).
    destruct (is_key u rc); [|reflexivity]. destruct (existsb is_null (values_of t cols r)); [reflexivity|]. cbn [tb_rows with_rows].
    match goal with |- (if existsb ?g _ then _ else _) = _ => set (G := g) end.
    rewrite !existsb_app. destruct (existsb G rows) eqn:X; [|reflexivity]. apply existsb_exists in X. destruct X as (x & Hx & Gx).
    assert (Y : existsb G (tb_rows u) = true) by (apply existsb_exists; exists x; split; [apply I, Hx|exact Gx]).
    change (existsb (fun pr => all_eqb (map (fun nv => affinity St (col_type (with_rows u (tb_rows u ++ [r])) (fst nv)) (snd nv)) (combine rc (values_of t cols r)))
      (values_of (with_rows u (tb_rows u ++ [r])) rc pr))) with (existsb G). rewrite Y. reflexivity.
  - rewrite !find_add_other by exact E. reflexivity.
Qed.
Lemma all_fks_repeat D n rows r t u fks : find_table n D = Some u -> incl rows (tb_rows u) ->
  all_fks St (add_rows n (rows ++ [r]) D) t r fks = all_fks St (add_rows n [r] D) t r fks.
Proof. intros F I. induction fks as [|f fks IH]; [reflexivity|]. cbn [all_fks]. rewrite (fk_holds_repeat D n rows r t u f F I), IH. reflexivity. Qed.
(** a row that can be stored when some rows are repeated can be stored without them *)
Lemma new_row_fewer D t rows r0 r : find_table (tb_name t) D = Some t -> incl rows (tb_rows t) -> numbered t r0 ->
  new_row St (add_rows (tb_name t) rows D) (with_rows t (tb_rows t ++ rows)) r0 = Ok r -> new_row St D t r0 = Ok r.
Proof.
  intros F Ns Nu. unfold new_row. rewrite (number_rows _ _ _ Nu). destruct (number_row t r0) as [r1|e]; [|discriminate]. cbn [bind].
  change (not_null_ok (with_rows t (tb_rows t ++ rows)) r1) with (not_null_ok t r1). destruct (negb (not_null_ok t r1)); [discriminate|].
  change (checks_ok St (with_rows t (tb_rows t ++ rows)) r1) with (checks_ok St t r1). destruct (negb (checks_ok St t r1)); [discriminate|].
  destruct (negb (unique_ok (with_rows t (tb_rows t ++ rows)) r1)) eqn:U; [discriminate|]. apply negb_false_iff, unique_rows in U. rewrite U. cbn [negb].
  cbn [tb_fks tb_name with_rows]. rewrite all_fks_rows. rewrite add_rows_app. rewrite (all_fks_repeat D (tb_name t) rows r1 t t _ F Ns). auto.
Qed.
Lemma insert_row_inv D n cols vals D' : insert_row St D n cols vals = Ok D' ->
  exists t r, find_table n D = Some t /\ forallb (has_col (col_names t)) cols = true /\ length vals = length cols /\
  new_row St D t (fill St t cols vals) = Ok r /\ D' = add_rows n [r] D.
Proof.
  unfold insert_row. destruct (find_table n D) as [t|] eqn:E; [|discriminate].
  destruct (forallb (has_col (col_names t)) cols) eqn:C; [|discriminate]. destruct (Nat.eqb (length vals) (length cols)) eqn:L; [|discriminate].
  cbn [negb orb]. intros H. apply bind_ok in H. destruct H as (r & Hr & H). apply Ok_inj in H. exists t, r.
  apply Nat.eqb_eq in L. repeat split; auto. rewrite <- H. apply add_rows_same, (find_table_name _ _ _ E).
Qed.
Lemma insert_row_intro D n cols vals t r : find_table n D = Some t -> forallb (has_col (col_names t)) cols = true -> length vals = length cols ->
  new_row St D t (fill St t cols vals) = Ok r -> insert_row St D n cols vals = Ok (add_rows n [r] D).
Proof.
  intros E C L R. unfold insert_row. rewrite E, C, L, Nat.eqb_refl. cbn [negb orb]. rewrite R. cbn [bind]. f_equal.
  apply add_rows_same, (find_table_name _ _ _ E).
Qed.
Lemma insert_row_fewer D n rows cols vals D' t : find_table n D = Some t -> incl rows (tb_rows t) -> numbered t (fill St t cols vals) ->
  insert_row St (add_rows n rows D) n cols vals = Ok D' -> exists r, insert_row St D n cols vals = Ok (add_rows n [r] D).
Proof.
  intros E Ns Nu H. apply insert_row_inv in H. destruct H as (t' & r & E' & C & L & R & ->).
  rewrite (find_add_same n rows D n (same_name_refl n)), E in E'. injection E' as <-.
  exists r. apply (insert_row_intro D n cols vals t r E C L).
  assert (X : find_table (tb_name t) D = Some t) by (rewrite <- E; apply find_table_same, (find_table_name _ _ _ E)).
  apply (new_row_fewer D t rows _ r X Ns Nu). rewrite <- R. f_equal. symmetry. apply add_rows_same. rewrite same_name_sym. apply (find_table_name _ _ _ E).
Qed.

(** *** creating tables *)
Lemma create_inv D n cols pk fks D' : create St D n cols pk fks = Ok D' ->
  (D' = D /\ exists t, find_table n D = Some t) \/
  (find_table n D = None /\ distinct (map cd_name cols) = true /\ forallb (has_col (map cd_name cols)) pk = true /\
   D' = D ++ [{| tb_name := n; tb_cols := cols; tb_pk := pk; tb_fks := fks; tb_rows := [] |}]).
Proof.
  unfold create. destruct (find_table n D) as [t|] eqn:E; [intros H; apply Ok_inj in H; left; split; [auto|exists t; reflexivity]|].
  destruct (reserved n); [discriminate|]. destruct (distinct (map cd_name cols)); [|discriminate]. destruct (forallb (has_col (map cd_name cols)) pk); [|discriminate].
  cbn [negb orb]. match goal with |- (if ?b then _ else _) = _ -> _ => destruct b end; [discriminate|]. intros H. apply Ok_inj in H. right. auto.
Qed.
End Fns.
