(** CHECK constraints and valid values (C42). *)
From Coq Require Import QArith Qpower.
From Verif Require Import PyStr Dsv DsvProofs4 Dec DecProofs NumericSpec DecProofs2 Dates Datatype Column Group GroupProofs1 Sql Db DbSql DbSqlSpec SqlProofs DbSqlProofs DbSqlProofs2
  Sqlite SqliteProofs DbWrite DbWriteSpec DbWriteProofs3 DbWriteProofs4 DbWriteProofs5 CheckSpec.
Open Scope N_scope.

(** *** numbers *)
Definition num (v : sval) : option Q := match v with SInt z => Some (inject_Z z) | SReal q => Some q | _ => None end.
Lemma Qcompare_Z x y : Qcompare (inject_Z x) (inject_Z y) = Z.compare x y.
Proof. unfold Qcompare, inject_Z. cbn [Qnum Qden]. rewrite !Z.mul_1_r. reflexivity. Qed.
Lemma sv_cmp_num a b x y : num a = Some x -> num b = Some y -> sv_cmp a b = Some (Qcompare x y).
Proof.
  destruct a, b; cbn; intros Ha Hb; try discriminate; injection Ha as <-; injection Hb as <-; unfold qcmp; try reflexivity. rewrite Qcompare_Z. reflexivity.
Qed.
Lemma real_int_eq q z : real_int q = Some z -> (inject_Z z == q)%Q.
Proof.
  unfold real_int. destruct (Pos.eqb (Qden (Qred q)) 1 && int64 (Qnum (Qred q))) eqn:E; [|discriminate]. intros H. injection H as <-.
  apply andb_prop in E. destruct E as [E _]. apply Pos.eqb_eq in E. rewrite <- (Qred_correct q) at 2. unfold Qeq, inject_Z. cbn [Qnum Qden]. rewrite E. reflexivity.
Qed.
Lemma affinity_num St v x : num v = Some x -> exists y, num (affinity St INTEGER v) = Some y /\ (y == x)%Q.
Proof.
  destruct v; cbn; intros H; try discriminate; injection H as <-.
  - eexists; split; [reflexivity|]. reflexivity.
  - destruct (real_int q) as [z|] eqn:E; eexists; (split; [reflexivity|]); [apply real_int_eq, E|reflexivity].
Qed.
Lemma Qcompare_comp2 x y x' y' : (x == x')%Q -> (y == y')%Q -> Qcompare x y = Qcompare x' y'.
Proof. intros -> ->. reflexivity. Qed.

Lemma str_cmp_opp a : forall b, str_cmp a b = CompOpp (str_cmp b a).
Proof.
  induction a as [|x a IH]; intros [|y b]; try reflexivity. cbn [str_cmp]. rewrite (N.compare_antisym y x). destruct (N.compare y x); cbn [CompOpp]; auto.
Qed.
Lemma lex_opp l m : Forall2 (fun a b => a = CompOpp b) l m -> Datatype.lex l = CompOpp (Datatype.lex m).
Proof. induction 1 as [|a b l m E H IH]; [reflexivity|]. unfold Datatype.lex in *. cbn [fold_right]. subst a. destruct b; cbn [CompOpp]; auto. Qed.
Lemma dt_cmp_opp a b : dt_cmp a b = CompOpp (dt_cmp b a).
Proof. unfold dt_cmp. apply lex_opp. repeat (constructor; [apply N.compare_antisym|]). constructor. Qed.

Section Db.
Variable P : py_fns.
Variable St : store_fns.
Definition passes (env : pystr -> option (sqltype * sval)) (a : atom) : Prop := eval_atom St env a <> Some (Some false).
Lemma check_passes env l : (forall a, In a l -> passes env a) -> check_holds St env l = true.
Proof.
  intros H. apply forallb_forall. intros a Ia. specialize (H a Ia). unfold passes in H. destruct (eval_atom St env a) as [[[|]|]|]; try reflexivity. contradiction H. reflexivity.
Qed.
(** comparisons of a number in a column with a number *)
Lemma passes_num env cname t x op neg s v w : env cname = Some (t, x) -> numeric (Some t) = true -> num x = Some v -> num (literal St neg s) = Some w ->
  cmp_holds op (Qcompare v w) = true -> passes env {| at_l := OCol cname; at_op := op; at_r := ONum neg s |}.
Proof.
  intros He Ht Hv Hw Hc. unfold passes, eval_atom. cbn [at_l at_r at_op eval]. rewrite He. unfold cmp_values. rewrite Ht. cbn [numeric negb andb].
  destruct (affinity_num St _ _ Hw) as (y & Hy & Ey). rewrite (sv_cmp_num _ _ v y Hv Hy). rewrite (Qcompare_comp2 v y v w (Qeq_refl v) Ey), Hc. discriminate.
Qed.
(** comparisons of a function with a number *)
Lemma passes_len env cname t x op neg s v w : env cname = Some (t, x) -> num (sv_length St x) = Some v -> num (literal St neg s) = Some w ->
  cmp_holds op (Qcompare v w) = true -> passes env {| at_l := OFun (lit "LENGTH") (OCol cname); at_op := op; at_r := ONum neg s |}.
Proof.
  intros He Hv Hw Hc. unfold passes, eval_atom. cbn [at_l at_r at_op eval]. rewrite He. rewrite str_eqb_refl. unfold cmp_values. cbn [numeric negb andb].
  rewrite (sv_cmp_num _ _ v w Hv Hw), Hc. discriminate.
Qed.
Lemma ge_holds v w : (w <= v)%Q -> cmp_holds Ge (Qcompare v w) = true.
Proof. intros H. destruct (Qcompare v w) eqn:E; try reflexivity. apply Qlt_alt in E. exfalso. apply (Qlt_not_le _ _ E H). Qed.
Lemma le_holds v w : (v <= w)%Q -> cmp_holds Le (Qcompare v w) = true.
Proof. intros H. destruct (Qcompare v w) eqn:E; try reflexivity. apply Qgt_alt in E. exfalso. apply (Qlt_not_le _ _ E H). Qed.
Lemma eq_holds v w : (v == w)%Q -> cmp_holds EqS (Qcompare v w) = true.
Proof. intros H. apply Qeq_alt in H. rewrite H. reflexivity. Qed.

(** *** literals *)
Lemma num_operand_digits n : num_operand (digits_of n) = ONum false (digits_of n).
Proof.
  pose proof (digits_of_all n) as A. pose proof (digits_of_nonempty n) as E. destruct (digits_of n) as [|c s]; [contradiction|].
  cbn [all_digits forallb] in A. apply andb_prop in A. destruct A as [A _].
  unfold num_operand. destruct c as [|p]; [reflexivity|]. repeat (destruct p as [p|p|]; try reflexivity). discriminate A.
Qed.
Lemma dec_str_int n : dec_str (Fin false n 0) = digits_of n.
Proof.
  unfold dec_str, dec_format, dec_parts. cbn [sign_str app]. pose proof (digits_of_nonempty n) as E. set (l := Z.of_nat (length (digits_of n))).
  assert (L : (0 < l)%Z) by (unfold l; destruct (digits_of n); [contradiction|cbn [length]; lia]).
  replace (Z.leb 0 0 && Z.ltb (-6) (0 + l)) with true by (symmetry; apply andb_true_intro; split; [reflexivity|apply Z.ltb_lt; lia]).
  rewrite Z.add_0_l. assert (L1 : Z.ltb l 0 = false) by (apply Z.ltb_ge; lia). rewrite L1, Z.ltb_irrefl, Z.sub_diag. cbn [Z.eqb fst snd].
  replace (Z.to_nat l) with (length (digits_of n)) by (unfold l; lia). rewrite firstn_all, skipn_all. cbn [app]. rewrite app_nil_r. destruct (digits_of n); [contradiction|reflexivity].
Qed.

Variable rnd : Q -> Q.
Hypothesis R : reals rnd P St.
(** a literal: exact if it is an integer of 64 bits, rounded otherwise *)
Lemma dec_q_int n : (dec_q false n 0 == inject_Z (Z.of_N n))%Q.
Proof. unfold dec_q. cbn [Qpower]. rewrite Qmult_1_r. change (inject_Z 1) with 1%Q. rewrite Qmult_1_l. reflexivity. Qed.
Lemma literal_digits neg n : exists w, num (literal St neg (digits_of n)) = Some w /\
  ((w == inject_Z (if neg then - Z.of_N n else Z.of_N n))%Q \/ (2 ^ 63 <= Z.of_N n)%Z /\ if neg then (w <= inject_Z (- 2 ^ 63))%Q else (inject_Z (2 ^ 63) <= w)%Q).
Proof.
  unfold literal. rewrite digits_of_all, val_digits_of. cbn [andb]. destruct (int64 (Z.of_N n)) eqn:E.
  - eexists. split; [reflexivity|]. left. reflexivity.
  - eexists. split; [reflexivity|]. right. unfold int64 in E. apply andb_false_iff in E. destruct E as [E|E]; [apply Z.leb_gt in E; lia|]. apply Z.ltb_ge in E. split; [exact E|].
    assert (B : (inject_Z (2 ^ 63) <= literal_real St (digits_of n))%Q).
    { rewrite <- dec_str_int, (re_literal _ _ _ R). rewrite <- (re_big _ _ _ R). apply (re_mono _ _ _ R). rewrite dec_q_int. rewrite <- Zle_Qle. exact E. }
    destruct neg; [|exact B]. rewrite inject_Z_opp. apply Qopp_le_compat, B.
Qed.
Lemma int_literal m z : (- 2 ^ 63 <= z < 2 ^ 63)%Z -> exists neg s w, num_operand (int_str m) = ONum neg s /\ num (literal St neg s) = Some w /\
  ((m <= z)%Z -> (w <= inject_Z z)%Q) /\ ((z <= m)%Z -> (inject_Z z <= w)%Q) /\ (z = m -> (inject_Z z == w)%Q).
Proof.
  intros Hz. assert (G : forall neg n, (if neg : bool then - Z.of_N n else Z.of_N n)%Z = m -> exists w, num (literal St neg (digits_of n)) = Some w /\
    ((m <= z)%Z -> (w <= inject_Z z)%Q) /\ ((z <= m)%Z -> (inject_Z z <= w)%Q) /\ (z = m -> (inject_Z z == w)%Q)).
  { intros neg n E. destruct (literal_digits neg n) as (w & Hw & [X|[B X]]); exists w; (split; [exact Hw|]).
    - rewrite E in X. split; [intros H; rewrite X, <- Zle_Qle; exact H|]. split; [intros H; rewrite X, <- Zle_Qle; exact H|intros ->; symmetry; exact X].
    - destruct neg.
      + assert (m <= - 2 ^ 63)%Z by lia. split; [intros _; apply (Qle_trans _ _ _ X); rewrite <- Zle_Qle; lia|]. 
        assert (Y : (z <= m)%Z -> (inject_Z z <= w)%Q /\ (inject_Z z == w)%Q).
        { intros H1. assert (Em : m = (- 2 ^ 63)%Z) by lia. assert (Ez : z = (- 2 ^ 63)%Z) by lia. rewrite Ez.
          assert (En : n = 2 ^ 63) by lia. subst n.
          assert (V : (w == inject_Z (- 2 ^ 63))%Q).
          { unfold literal in Hw. rewrite digits_of_all, val_digits_of in Hw. change (true && int64 (Z.of_N (2 ^ 63))) with false in Hw. cbn [num] in Hw. injection Hw as <-.
            rewrite inject_Z_opp. rewrite <- dec_str_int, (re_literal _ _ _ R).
            assert (Em2 : (rnd (dec_q false (2 ^ 63) 0) == inject_Z (2 ^ 63))%Q).
            { apply Qle_antisym.
              - apply (Qle_trans _ (rnd (inject_Z (2 ^ 63)))); [apply (re_mono _ _ _ R); rewrite dec_q_int; apply Qle_refl|rewrite (re_big _ _ _ R); apply Qle_refl].
              - apply (Qle_trans _ (rnd (inject_Z (2 ^ 63)))); [rewrite (re_big _ _ _ R); apply Qle_refl|apply (re_mono _ _ _ R); rewrite dec_q_int; apply Qle_refl]. }
            rewrite Em2. reflexivity. }
          split; [rewrite V; apply Qle_refl|symmetry; exact V]. }
        split; [intros H1; apply (Y H1)|intros ->; apply (Y (Z.le_refl m))].
      + split; [intros H; exfalso; lia|]. split; [intros _; apply (Qle_trans _ (inject_Z (2 ^ 63))); [rewrite <- Zle_Qle; lia|exact X]|intros H; exfalso; lia]. }
  destruct m as [|p|p]; cbn [int_str].
  - destruct (G false 0 eq_refl) as (w & X). exists false, (digits_of (Z.to_N 0)), w. split; [apply num_operand_digits|exact X].
  - destruct (G false (Npos p) eq_refl) as (w & X). exists false, (digits_of (Z.to_N (Zpos p))), w. split; [apply num_operand_digits|exact X].
  - destruct (G true (Npos p) eq_refl) as (w & X). exists true, (digits_of (Npos p)), w. split; [reflexivity|exact X].
Qed.

(** *** decimals *)
Lemma pow10_pos m : (0 < Qpower (inject_Z 10) m)%Q.
Proof. apply Qpower_0_lt. reflexivity. Qed.
Lemma dec_q_scaled n c e m : (m <= e)%Z -> (dec_q n c e == inject_Z ((if n then -1 else 1) * Z.of_N c * 10 ^ (e - m)) * Qpower (inject_Z 10) m)%Q.
Proof.
  intros H. unfold dec_q. replace e with ((e - m) + m)%Z at 1 by lia. rewrite Qpower_plus by discriminate. rewrite !inject_Z_mult.
  assert (E : (Qpower (inject_Z 10) (e - m) == inject_Z (10 ^ (e - m)))%Q); [|rewrite E; ring].
  rewrite <- (Z2Nat.id (e - m)) by lia. generalize (Z.to_nat (e - m)). induction n0 as [|k IH]; [reflexivity|].
  rewrite Nat2Z.inj_succ. unfold Z.succ. rewrite Qpower_plus by discriminate. rewrite IH. change (Qpower (inject_Z 10) 1) with (inject_Z 10).
  rewrite Z.pow_add_r by lia. rewrite inject_Z_mult. reflexivity.
Qed.
Lemma dec_cmp_q n1 c1 e1 n2 c2 e2 : dec_cmp (Fin n1 c1 e1) (Fin n2 c2 e2) = Ok (Some (Qcompare (dec_q n1 c1 e1) (dec_q n2 c2 e2))).
Proof.
  unfold dec_cmp. f_equal. f_equal. set (m := Z.min e1 e2).
  rewrite (Qcompare_comp2 _ _ _ _ (dec_q_scaled n1 c1 e1 m (Z.le_min_l _ _)) (dec_q_scaled n2 c2 e2 m (Z.le_min_r _ _))).
  set (a := ((if n1 then -1 else 1) * Z.of_N c1 * 10 ^ (e1 - m))%Z). set (b := ((if n2 then -1 else 1) * Z.of_N c2 * 10 ^ (e2 - m))%Z).
  pose proof (pow10_pos m) as Hp. destruct (Z.compare_spec a b) as [E|E|E]; symmetry.
  - rewrite E. apply Qeq_alt. reflexivity.
  - apply Qlt_alt. apply Qmult_lt_compat_r; [exact Hp|]. rewrite <- Zlt_Qlt. exact E.
  - apply Qgt_alt. apply Qmult_lt_compat_r; [exact Hp|]. rewrite <- Zlt_Qlt. exact E.
Qed.
Lemma dec_str_operand n c e : num_operand (dec_str (Fin n c e)) = ONum n (dec_str (Fin false c e)).
Proof.
  unfold dec_str, dec_format. destruct n; [reflexivity|]. cbn [sign_str app].
  assert (H : exists x r, fst (dec_parts c e) = x :: r /\ is_digit x = true).
  { destruct (Z.leb e 0 && Z.ltb (-6) (e + Z.of_nat (length (digits_of c)))) eqn:E.
    - destruct (dec_parts_plain c e) as (ip & fp & Ed & (Hn1 & _) & Hne & _).
      { unfold printed_plainly, ndigits. apply andb_prop in E. destruct E as [E1 E2]. apply Z.leb_le in E1. apply Z.ltb_lt in E2. lia. }
      rewrite Ed. cbn [fst]. destruct ip as [|x r]; [contradiction|]. exists x, r. split; [reflexivity|].
      cbn [app] in Hn1. inversion Hn1 as [|? ? Hx _]; subst. unfold is_digit. apply andb_true_intro. split; apply N.leb_le; lia.
    - destruct (dec_parts_sci c e) as (x & ds & Ed & Ep & _).
      { unfold printed_plainly, ndigits. apply andb_false_iff in E. destruct E as [E|E]; [apply Z.leb_gt in E|apply Z.ltb_ge in E]; lia. }
      rewrite Ep. cbn [fst]. exists x, []. split; [reflexivity|]. pose proof (digits_of_all c) as A. rewrite Ed in A. apply (proj1 (andb_prop _ _ A)). }
  destruct H as (x & r & -> & Hx). cbn [app]. unfold num_operand. destruct x as [|p]; [reflexivity|]. repeat (destruct p as [p|p|]; try reflexivity). discriminate Hx.
Qed.
Lemma all_digits_app a b : all_digits (a ++ b) = all_digits a && all_digits b.
Proof. apply forallb_app. Qed.
Lemma dec_str_digits c e : all_digits (dec_str (Fin false c e)) = true -> e = 0%Z /\ dec_str (Fin false c e) = digits_of c.
Proof.
  intros H. assert (E0 : e = 0%Z); [|subst; split; [reflexivity|apply dec_str_int]].
  unfold dec_str, dec_format in H. cbn [sign_str app] in H. rewrite all_digits_app in H. apply andb_prop in H. destruct H as [_ H].
  destruct (Z.leb e 0 && Z.ltb (-6) (e + Z.of_nat (length (digits_of c)))) eqn:E.
  - destruct (dec_parts_plain c e) as (ip & fp & Ed & _ & _ & _ & Hl).
    { unfold printed_plainly, ndigits. apply andb_prop in E. destruct E as [E1 E2]. apply Z.leb_le in E1. apply Z.ltb_lt in E2. lia. }
    rewrite Ed in H. cbn [snd] in H. destruct fp as [|x fp]; [cbn [length] in Hl; lia|]. discriminate H.
  - destruct (dec_parts_sci c e) as (x & ds & Ed & Ep & _).
    { unfold printed_plainly, ndigits. apply andb_false_iff in E. destruct E as [E|E]; [apply Z.leb_gt in E|apply Z.ltb_ge in E]; lia. }
    rewrite Ep in H. cbn [snd] in H. rewrite all_digits_app in H. apply andb_prop in H. destruct H as [_ H]. discriminate H.
Qed.
Lemma rnd_eq a b : (a == b)%Q -> (rnd a == rnd b)%Q.
Proof. intros E. apply Qle_antisym; apply (re_mono _ _ _ R); rewrite E; apply Qle_refl. Qed.
Lemma dec_q_opp c e : (dec_q true c e == - dec_q false c e)%Q.
Proof. unfold dec_q. change (inject_Z (-1)) with (-1)%Q. change (inject_Z 1) with 1%Q. ring. Qed.
Lemma dec_literal n c e : e <> 0%Z \/ c <= 2 ^ 53 -> exists w, num (literal St n (dec_str (Fin false c e))) = Some w /\ (w == rnd (dec_q n c e))%Q.
Proof.
  intros H. unfold literal. destruct (all_digits (dec_str (Fin false c e)) && int64 (Z.of_N (val_digits (dec_str (Fin false c e))))) eqn:E.
  - apply andb_prop in E. destruct E as [E _]. destruct (dec_str_digits c e E) as [E0 Ed]. rewrite Ed, val_digits_of. eexists. split; [reflexivity|]. subst e.
    destruct H as [H|H]; [contradiction H; reflexivity|].
    assert (X : (rnd (dec_q false c 0) == inject_Z (Z.of_N c))%Q).
    { rewrite (rnd_eq _ _ (dec_q_int c)). apply (re_small _ _ _ R). lia. }
    destruct n; [|symmetry; exact X]. rewrite (rnd_eq _ _ (dec_q_opp c 0)), (re_opp _ _ _ R), X, inject_Z_opp. reflexivity.
  - eexists. split; [reflexivity|]. destruct n; [|apply (re_literal _ _ _ R)]. rewrite (re_literal _ _ _ R), (rnd_eq _ _ (dec_q_opp c e)), (re_opp _ _ _ R). reflexivity.
Qed.

(** *** what validation says *)
Lemma valid_len cls (F : facets value) v n : (if v_truthy value_ops v then v_len value_ops v else Some 0%nat) = Some n -> validate value_ops cls F v = Ok v ->
  (forall k, fc_length F = Some k -> Z.of_nat n = k) /\ (forall k, fc_minLength F = Some k -> (k <= Z.of_nat n)%Z) /\ (forall k, fc_maxLength F = Some k -> (Z.of_nat n <= k)%Z).
Proof.
  intros Hn H. unfold validate in H. apply bind_ok in H. destruct H as ([] & H & _). unfold check_len in H. rewrite Hn in H.
  repeat split; intros k Hk; rewrite Hk in H.
  - destruct (Z.eqb_spec (Z.of_nat n) k) as [E|E]; [exact E|discriminate H].
  - destruct (match fc_length F with Some k0 => _ | None => _ end); [discriminate H|]. destruct (Z.ltb_spec (Z.of_nat n) k); [discriminate H|assumption].
  - destruct (match fc_length F with Some k0 => _ | None => _ end); [discriminate H|]. destruct (match fc_minLength F with Some k0 => _ | None => _ end); [discriminate H|].
    destruct (Z.ltb_spec k (Z.of_nat n)); [discriminate H|assumption].
Qed.
Lemma check_op op (v b : value) : check op v (Some b) = Ok tt -> op v b = Ok false.
Proof. cbn [check]. intros H. apply bind_ok in H. destruct H as (r & Hr & H). destruct r; [discriminate H|exact Hr]. Qed.
Lemma opr_false f (v b : value) : opr value_ops f v b = Ok false -> exists r, v_cmp value_ops v b = Ok r /\ match r with Some c => f c = false | None => True end.
Proof. unfold opr. intros H. apply bind_ok in H. destruct H as (r & Hr & H). exists r. split; [exact Hr|]. destruct r; [apply Ok_inj in H; exact H|exact I]. Qed.
Lemma valid_bounds cls (F : facets value) v : minmax cls = true -> validate value_ops cls F v = Ok v ->
  (forall b, fc_minimum F = Some b -> exists r, v_cmp value_ops v b = Ok r /\ r <> Some Lt) /\
  (forall b, fc_maximum F = Some b -> exists r, v_cmp value_ops v b = Ok r /\ r <> Some Gt).
Proof.
  intros Hm H. unfold validate in H. rewrite Hm in H. apply bind_ok in H. destruct H as (_ & _ & H).
  apply bind_ok in H. destruct H as ([] & H1 & H). apply bind_ok in H. destruct H as (_ & _ & H). apply bind_ok in H. destruct H as (_ & _ & H).
  apply bind_ok in H. destruct H as ([] & H2 & H). split; intros b Hb.
  - rewrite Hb in H1. apply check_op, opr_false in H1. destruct H1 as (r & Hr & X). exists r. split; [exact Hr|]. intros ->. discriminate X.
  - rewrite Hb in H2. apply check_op, opr_false in H2. destruct H2 as (r & Hr & X). exists r. split; [exact Hr|]. intros ->. discriminate X.
Qed.

(** *** one column *)
Variable date_str : dt -> pystr.
Hypothesis Da : dates date_str P St.
Lemma length_passes env cname t x n op (k : option Z) : (Z.of_nat n < 2 ^ 63)%Z -> env cname = Some (t, x) -> sv_length St x = SInt (Z.of_nat n) ->
  (forall z, k = Some z -> match op with EqS => Z.of_nat n = z | Ge => (z <= Z.of_nat n)%Z | Le => (Z.of_nat n <= z)%Z end) ->
  forall a, In a (length_atom cname op k) -> passes env a.
Proof.
  intros Hn He Hl Hk a Ia. unfold length_atom in Ia. destruct k as [z|]; [|destruct Ia].
  assert (A : a = {| at_l := OFun (lit "LENGTH") (OCol cname); at_op := op; at_r := num_operand (int_str z) |}).
  { destruct z; cbn [In] in Ia; [destruct Ia|destruct Ia as [Ia|[]]; symmetry; exact Ia|destruct Ia as [Ia|[]]; symmetry; exact Ia]. }
  specialize (Hk z eq_refl). destruct (int_literal z (Z.of_nat n)) as (neg & s & w & En & Hw & L1 & L2 & L3); [lia|]. rewrite A, En.
  eapply passes_len; [exact He|rewrite Hl; reflexivity|exact Hw|]. destruct op; [apply ge_holds, L1, Hk|apply le_holds, L2, Hk|apply eq_holds, L3, Hk].
Qed.
Lemma atoms_cases cname t i a : In a (atoms cname t i) ->
  (exists b, di_min i = Some b /\ a = compare_atom cname Ge (date_func t) b) \/ (exists b, di_max i = Some b /\ a = compare_atom cname Le (date_func t) b) \/
  In a (length_atom cname EqS (di_length i)) \/ In a (length_atom cname Ge (di_minLength i)) \/ In a (length_atom cname Le (di_maxLength i)).
Proof.
  unfold atoms. destruct (di_min i) as [b|] eqn:E1, (di_max i) as [b'|] eqn:E2; cbn [opt_list app In]; intros H.
  - destruct H as [H|[H|[]]]; [left; exists b|right; left; exists b']; auto.
  - destruct H as [H|[]]; left; exists b; auto.
  - destruct H as [H|[]]; right; left; exists b'; auto.
  - rewrite !in_app_iff in H. tauto.
Qed.
Lemma no_length_atoms cname op (k : option Z) a : k = None \/ k = Some 0%Z -> In a (length_atom cname op k) -> False.
Proof. intros [->| ->] H; exact H. Qed.
Lemma before_null_id s : ~ In 0 s -> before_null s = s.
Proof.
  induction s as [|c s IH]; intros H; [reflexivity|]. cbn [before_null]. destruct c as [|q]; [contradiction H; left; reflexivity|]. rewrite IH; [reflexivity|]. intros X. apply H. right. exact X.
Qed.
(** what is stored *)
Lemma stored_int c z x : cs_type c = lit "integer" -> opt_true (cs_separator c) = false -> cs_db_type c = db_type (cs_type c) (cs_separator c) -> cell_stored P St c (Some (POne (VInt z))) x ->
  cs_db_type c = INTEGER /\ x = SInt z /\ int64 z = true.
Proof.
  intros Ht Hs T (b & u & C & B & ->). rewrite T. unfold db_type. rewrite Hs. cbn [cell_value] in C. rewrite Ht in *. apply Ok_inj in C. subst b. cbn [bind_value] in B.
  destruct (int64 z); [|discriminate B]. apply Ok_inj in B. subst u. split; [reflexivity|]. split; reflexivity.
Qed.
Lemma stored_dec c v x : cs_type c = lit "decimal" -> opt_true (cs_separator c) = false -> cs_db_type c = db_type (cs_type c) (cs_separator c) -> cell_stored P St c (Some (POne v)) x ->
  cs_db_type c = REAL /\ exists q, py_float P v = Ok q /\ x = SReal q.
Proof.
  intros Ht Hs T (b & u & C & B & ->). rewrite T. unfold db_type. rewrite Hs. cbn [cell_value] in C. rewrite Ht in *. unfold convert in C. apply bind_ok in C. destruct C as (q & Cq & C).
  apply Ok_inj in C. subst b. apply Ok_inj in B. subst u. split; [reflexivity|]. exists q. split; [exact Cq|reflexivity].
Qed.
Lemma stored_date c v x : cs_type c = lit "date" \/ cs_type c = lit "datetime" -> opt_true (cs_separator c) = false -> cs_db_type c = db_type (cs_type c) (cs_separator c) ->
  cell_stored P St c (Some (POne v)) x -> exists u, to_string P (cs_type c) v = Ok u /\ x = SText u.
Proof.
  intros Ht Hs T (b & u & C & B & ->). cbn [cell_value] in C.
  assert (X : convert P (cs_type c) v = (s <- to_string P (cs_type c) v ;; Ok (BVal (POne (VStr s)))) /\ cs_db_type c = TEXT).
  { rewrite T. unfold db_type. rewrite Hs. destruct Ht as [-> | ->]; split; reflexivity. }
  destruct X as [X ->]. rewrite X in C. apply bind_ok in C. destruct C as (t & Ct & C). apply Ok_inj in C. subst b. apply bind_text_ok in B. subst u. exists t. split; [exact Ct|reflexivity].
Qed.
Lemma stored_str c s x : cs_type c = lit "string" -> opt_true (cs_separator c) = false -> cs_db_type c = db_type (cs_type c) (cs_separator c) -> cell_stored P St c (Some (POne (VStr s))) x -> x = SText s.
Proof.
  intros Ht Hs T (b & u & C & B & ->). rewrite T. unfold db_type. rewrite Hs. cbn [cell_value] in C. rewrite Ht in *. apply Ok_inj in C. subst b. apply bind_text_ok in B. subst u. reflexivity.
Qed.
Lemma stored_bytes c s x : cs_type c = lit "hexBinary" -> opt_true (cs_separator c) = false -> cs_db_type c = db_type (cs_type c) (cs_separator c) -> cell_stored P St c (Some (POne (VBytes s))) x -> x = SBlob s.
Proof.
  intros Ht Hs T (b & u & C & B & ->). cbn [cell_value] in C. rewrite Ht in C. apply Ok_inj in C. subst b. apply Ok_inj in B. subst u. destruct (cs_db_type c); reflexivity.
Qed.
Lemma int64_range z : int64 z = true -> (- 2 ^ 63 <= z < 2 ^ 63)%Z.
Proof. unfold int64. intros H. apply andb_prop in H. destruct H as [H1 H2]. apply Z.leb_le in H1. apply Z.ltb_lt in H2. split; assumption. Qed.
Lemma str_cmp_ge r w : str_cmp w r <> Gt -> cmp_holds Ge (str_cmp r w) = true.
Proof. rewrite (str_cmp_opp w r). destruct (str_cmp r w); cbn; intros H; try reflexivity. contradiction H. reflexivity. Qed.
Lemma str_cmp_le r w : str_cmp r w <> Gt -> cmp_holds Le (str_cmp r w) = true.
Proof. destruct (str_cmp r w); cbn; intros H; try reflexivity. contradiction H. reflexivity. Qed.

Lemma lengths_pass env cname t x n cls (F : facets value) i v : (Z.of_nat n < 2 ^ 63)%Z -> env cname = Some (t, x) -> sv_length St x = SInt (Z.of_nat n) ->
  (if v_truthy value_ops v then v_len value_ops v else Some 0%nat) = Some n -> validate value_ops cls F v = Ok v -> describes date_str F i ->
  forall a, In a (length_atom cname EqS (di_length i)) \/ In a (length_atom cname Ge (di_minLength i)) \/ In a (length_atom cname Le (di_maxLength i)) -> passes env a.
Proof.
  intros Hn He Hl Hv V D a. rewrite (ds_length _ _ _ D), (ds_minLength _ _ _ D), (ds_maxLength _ _ _ D). destruct (valid_len cls F v n Hv V) as (V1 & V2 & V3).
  intros [I|[I|I]]; eapply (length_passes env cname t x n); try eassumption; [exact V1|exact V2|exact V3].
Qed.
Lemma column_passes env c cname v x i : cs_db_type c = db_type (cs_type c) (cs_separator c) -> accepted date_str c v -> cell_stored P St c (Some (POne v)) x ->
  cs_csvw c = Some i -> env cname = Some (cs_db_type c, x) -> forall a, In a (atoms cname (cs_type c) i) -> passes env a.
Proof.
  intros T [As At Av] Sx Hi He a Ia. rewrite Hi in Av. destruct Av as (F & cls & D & Hc & V & Bmin & Bmax & L).
  apply atoms_cases in Ia. rewrite (ds_min _ _ _ D), (ds_max _ _ _ D) in Ia.
  assert (Nl : no_lengths F -> ~ (In a (length_atom cname EqS (di_length i)) \/ In a (length_atom cname Ge (di_minLength i)) \/ In a (length_atom cname Le (di_maxLength i)))).
  { intros (N1 & N2 & N3). rewrite (ds_length _ _ _ D), (ds_minLength _ _ _ D), (ds_maxLength _ _ _ D). intros [I|[I|I]]; eapply no_length_atoms; try exact I; assumption. }
  destruct v as [s|b|b|z|d|d]; cbn [of_type] in At.
  - (* string *) destruct At as (Ht & H0 & Hl).
    assert (N : forall o, (forall b, o = Some b -> bound_ok (cs_type c) b) -> o = None).
    { intros [b|] Hb; [|reflexivity]. destruct (Hb b eq_refl) as [B1 B2]. rewrite Ht in B1. destruct b; cbn in B1, B2; try contradiction; try discriminate B1. destruct B1 as [[B1|B1] _]; discriminate B1. }
    rewrite (N _ Bmin), (N _ Bmax) in Ia. destruct Ia as [(b & Eb & _)|[(b & Eb & _)|Ia]]; [discriminate Eb|discriminate Eb|].
    pose proof (stored_str c s x Ht As T Sx) as ->.
    eapply (lengths_pass env cname _ (SText s) (length s) cls F i (VStr s)); try eassumption.
    + cbn [sv_length]. rewrite before_null_id by exact H0. reflexivity.
    + destruct s; reflexivity.
  - (* bytes *) destruct At as (Ht & Hl).
    assert (N : forall o, (forall b, o = Some b -> bound_ok (cs_type c) b) -> o = None).
    { intros [b'|] Hb; [|reflexivity]. destruct (Hb b' eq_refl) as [B1 B2]. rewrite Ht in B1. destruct b'; cbn in B1, B2; try contradiction; try discriminate B1. destruct B1 as [[B1|B1] _]; discriminate B1. }
    rewrite (N _ Bmin), (N _ Bmax) in Ia. destruct Ia as [(b' & Eb & _)|[(b' & Eb & _)|Ia]]; [discriminate Eb|discriminate Eb|].
    pose proof (stored_bytes c b x Ht As T Sx) as ->.
    eapply (lengths_pass env cname _ (SBlob b) (length b) cls F i (VBytes b)); try eassumption; [reflexivity|]. destruct b; reflexivity.
  - (* boolean *)
    assert (N : forall o, (forall b, o = Some b -> bound_ok (cs_type c) b) -> o = None).
    { intros [b'|] Hb; [|reflexivity]. destruct (Hb b' eq_refl) as [B1 B2]. rewrite At in B1. destruct b'; cbn in B1, B2; try contradiction; try discriminate B1. destruct B1 as [[B1|B1] _]; discriminate B1. }
    rewrite (N _ Bmin), (N _ Bmax) in Ia. destruct Ia as [(b' & Eb & _)|[(b' & Eb & _)|Ia]]; [discriminate Eb|discriminate Eb|].
    exfalso. destruct L as [L|[L|L]]; [apply (Nl L Ia)|rewrite At in L; discriminate L|rewrite At in L; discriminate L].
  - (* integer *)
    destruct (stored_int c z x At As T Sx) as (Dt & -> & H64). apply int64_range in H64.
    assert (cls = CDecimal) by (rewrite At in Hc; vm_compute in Hc; injection Hc as <-; reflexivity). subst cls.
    destruct (valid_bounds CDecimal F _ eq_refl V) as [Vmin Vmax]. rewrite Dt in He.
    assert (Df : date_func (cs_type c) = None) by (rewrite At; reflexivity). rewrite Df in Ia. cbn [compare_atom] in Ia.
    destruct Ia as [(b & Eb & ->)|[(b & Eb & ->)|Ia]].
    + destruct (fc_minimum F) as [m|] eqn:Em; [|discriminate Eb]. cbn [option_map] in Eb. injection Eb as <-. destruct (Bmin m eq_refl) as [B1 B2]. rewrite At in B1.
      destruct m; cbn in B1, B2; try contradiction; try discriminate B1; [|destruct B1 as [[B1|B1] _]; discriminate B1]. cbn [py_str].
      destruct (Vmin _ eq_refl) as (r & Er & Hr). cbn in Er. apply Ok_inj in Er. subst r.
      destruct (int_literal z0 z H64) as (neg & s & w & En & Hw & L1 & _). rewrite En. eapply passes_num; [exact He|reflexivity|reflexivity|exact Hw|].
      apply ge_holds, L1. destruct (Z.compare_spec z z0); try lia. contradiction Hr; reflexivity.
    + destruct (fc_maximum F) as [m|] eqn:Em; [|discriminate Eb]. cbn [option_map] in Eb. injection Eb as <-. destruct (Bmax m eq_refl) as [B1 B2]. rewrite At in B1.
      destruct m; cbn in B1, B2; try contradiction; try discriminate B1; [|destruct B1 as [[B1|B1] _]; discriminate B1]. cbn [py_str].
      destruct (Vmax _ eq_refl) as (r & Er & Hr). cbn in Er. apply Ok_inj in Er. subst r.
      destruct (int_literal z0 z H64) as (neg & s & w & En & Hw & _ & L2 & _). rewrite En. eapply passes_num; [exact He|reflexivity|reflexivity|exact Hw|].
      apply le_holds, L2. destruct (Z.compare_spec z z0); try lia. contradiction Hr; reflexivity.
    + exfalso. destruct L as [L|[L|L]]; [apply (Nl L Ia)|rewrite At in L; discriminate L|rewrite At in L; discriminate L].
  - (* decimal *)
    destruct (stored_dec c (VDec d) x At As T Sx) as (Dt & q & Hq & ->).
    assert (cls = CDecimal) by (rewrite At in Hc; vm_compute in Hc; injection Hc as <-; reflexivity). subst cls.
    destruct (valid_bounds CDecimal F _ eq_refl V) as [Vmin Vmax]. rewrite Dt in He.
    destruct (re_finite _ _ _ R d q Hq) as (n1 & c1 & e1 & ->). pose proof (re_float _ _ _ R _ _ _ _ Hq) as Eq.
    assert (Df : date_func (cs_type c) = None) by (rewrite At; reflexivity). rewrite Df in Ia. cbn [compare_atom] in Ia.
    destruct Ia as [(b & Eb & ->)|[(b & Eb & ->)|Ia]].
    + destruct (fc_minimum F) as [m|] eqn:Em; [|discriminate Eb]. cbn [option_map] in Eb. injection Eb as <-. destruct (Bmin m eq_refl) as [B1 B2]. rewrite At in B1.
      destruct m; cbn in B1, B2; try contradiction; try discriminate B1; [|destruct B1 as [[B1|B1] _]; discriminate B1]. destruct d as [n2 c2 e2| |]; try contradiction. cbn [py_str].
      destruct (Vmin _ eq_refl) as (r & Er & Hr). cbn [value_ops v_cmp] in Er. rewrite dec_cmp_q in Er. apply Ok_inj in Er. subst r.
      destruct (dec_literal n2 c2 e2 B2) as (w & Hw & Ew). rewrite dec_str_operand. eapply passes_num; [exact He|reflexivity|reflexivity|exact Hw|].
      apply ge_holds. rewrite Ew, Eq. apply (re_mono _ _ _ R). apply Qnot_lt_le. intros X. apply Hr. f_equal. apply Qlt_alt. exact X.
    + destruct (fc_maximum F) as [m|] eqn:Em; [|discriminate Eb]. cbn [option_map] in Eb. injection Eb as <-. destruct (Bmax m eq_refl) as [B1 B2]. rewrite At in B1.
      destruct m; cbn in B1, B2; try contradiction; try discriminate B1; [|destruct B1 as [[B1|B1] _]; discriminate B1]. destruct d as [n2 c2 e2| |]; try contradiction. cbn [py_str].
      destruct (Vmax _ eq_refl) as (r & Er & Hr). cbn [value_ops v_cmp] in Er. rewrite dec_cmp_q in Er. apply Ok_inj in Er. subst r.
      destruct (dec_literal n2 c2 e2 B2) as (w & Hw & Ew). rewrite dec_str_operand. eapply passes_num; [exact He|reflexivity|reflexivity|exact Hw|].
      apply le_holds. rewrite Ew, Eq. apply (re_mono _ _ _ R). apply Qnot_lt_le. intros X. apply Hr. f_equal. apply Qgt_alt. exact X.
    + exfalso. destruct L as [L|[L|L]]; [apply (Nl L Ia)|rewrite At in L; discriminate L|rewrite At in L; discriminate L].
  - (* date *) destruct At as [Ht Hok]. destruct (stored_date c (VDate d) x Ht As T Sx) as (u & Hu & ->).
    destruct (da_text _ _ _ Da (cs_type c) d Ht Hok) as (r & Er & Eu). specialize (Eu u Hu).
    assert (Cl : minmax cls = true) by (destruct Ht as [Ht|Ht]; rewrite Ht in Hc; vm_compute in Hc; injection Hc as <-; reflexivity).
    destruct (valid_bounds cls F _ Cl V) as [Vmin Vmax].
    assert (Df : exists f, date_func (cs_type c) = Some f /\ map up1 f = sql_func (cs_type c)).
    { destruct Ht as [-> | ->]; eexists; split; reflexivity. }
    destruct Df as (f & Df & Ef). rewrite Df in Ia. cbn [compare_atom] in Ia. rewrite Ef in Ia.
    assert (G : forall op m r', date_fn St (sql_func (cs_type c)) (SText (date_str m)) = SText r' -> cmp_holds op (str_cmp r r') = true ->
      passes env {| at_l := OFun (sql_func (cs_type c)) (OCol cname); at_op := op; at_r := OFun (sql_func (cs_type c)) (OStr (date_str m)) |}).
    { intros op m r' Em Hh. unfold passes, eval_atom. cbn [at_l at_r at_op eval]. rewrite He.
      assert (Fn : str_eqb (sql_func (cs_type c)) (lit "LENGTH") = false /\ str_eqb (sql_func (cs_type c)) (lit "DATE") || str_eqb (sql_func (cs_type c)) (lit "DATETIME") = true).
      { destruct Ht as [-> | ->]; split; reflexivity. }
      destruct Fn as [-> ->]. rewrite Em, Eu. unfold cmp_values. cbn [numeric negb andb sv_cmp]. rewrite Hh. discriminate. }
    destruct Ia as [(b & Eb & ->)|[(b & Eb & ->)|Ia]].
    + destruct (fc_minimum F) as [m|] eqn:Em; [|discriminate Eb]. cbn [option_map] in Eb. injection Eb as <-. destruct (Bmin m eq_refl) as [B1 B2].
      destruct m as [| | | | |m]; cbn in B1, B2; try contradiction; try (solve [destruct Ht as [Ht|Ht]; rewrite Ht in B1; discriminate B1]). cbn [py_str].
      destruct B1 as [_ Mok]. destruct (Vmin _ eq_refl) as (cc & Ec & Hr). cbn [value_ops v_cmp] in Ec. apply Ok_inj in Ec. subst cc.
      destruct (da_text _ _ _ Da (cs_type c) m Ht Mok) as (r' & Er' & _). apply (G Ge m r' Er'). apply str_cmp_ge.
      apply (da_mono _ _ _ Da (cs_type c) m d r' r Ht Mok Hok); [|exact Er'|exact Er]. rewrite dt_cmp_opp. intros X. apply Hr. destruct (dt_cmp d m); try discriminate X. reflexivity.
    + destruct (fc_maximum F) as [m|] eqn:Em; [|discriminate Eb]. cbn [option_map] in Eb. injection Eb as <-. destruct (Bmax m eq_refl) as [B1 B2].
      destruct m as [| | | | |m]; cbn in B1, B2; try contradiction; try (solve [destruct Ht as [Ht|Ht]; rewrite Ht in B1; discriminate B1]). cbn [py_str].
      destruct B1 as [_ Mok]. destruct (Vmax _ eq_refl) as (cc & Ec & Hr). cbn [value_ops v_cmp] in Ec. apply Ok_inj in Ec. subst cc.
      destruct (da_text _ _ _ Da (cs_type c) m Ht Mok) as (r' & Er' & _). apply (G Le m r' Er'). apply str_cmp_le.
      apply (da_mono _ _ _ Da (cs_type c) d m r r' Ht Hok Mok); [|exact Er|exact Er']. intros X. apply Hr. rewrite X. reflexivity.
    + exfalso. destruct L as [L|[L|L]]; [apply (Nl L Ia)| |]; destruct Ht as [Ht|Ht]; rewrite Ht in L; discriminate L.
Qed.
(** NULL *)
Lemma sv_cmp_null w : sv_cmp SNull w = None.
Proof. reflexivity. Qed.
Lemma null_atom env op o1 o2 t : eval St env o1 = Some (t, SNull) -> passes env {| at_l := o1; at_op := op; at_r := o2 |}.
Proof.
  intros H. unfold passes, eval_atom. cbn [at_l at_op at_r]. rewrite H. destruct (eval St env o2) as [[t2 w]|]; [|discriminate]. unfold cmp_values.
  assert (A : forall T, affinity St T SNull = SNull) by (intros []; reflexivity).
  destruct (numeric t && negb (numeric t2)); [discriminate|]. destruct (numeric t2 && negb (numeric t)); [rewrite A; discriminate|].
  destruct t as [[]|], t2 as [[]|]; cbn [affinity]; discriminate.
Qed.
Lemma null_passes env cname ct t i : env cname = Some (t, SNull) -> forall a, In a (atoms cname ct i) -> passes env a.
Proof.
  intros He a Ia. apply atoms_cases in Ia.
  assert (Lp : forall op k, In a (length_atom cname op k) -> passes env a).
  { intros op k I. unfold length_atom in I. destruct k as [[|z|z]|]; cbn [In] in I; try contradiction; destruct I as [<-|[]]; apply (null_atom _ _ _ _ None); cbn [eval]; rewrite He; reflexivity. }
  assert (Cp : forall op b, a = compare_atom cname op (date_func ct) b -> passes env a).
  { intros op b ->. unfold date_func. destruct (str_eqb ct (lit "date")) eqn:E1; [|destruct (str_eqb ct (lit "datetime")) eqn:E2]; cbn [compare_atom].
    - apply (null_atom _ _ _ _ None). cbn [eval]. rewrite He. apply str_eqb_eq in E1. pose proof (da_null _ _ _ Da ct) as N. rewrite E1 in N. unfold sql_func in N. rewrite str_eqb_refl in N.
      change (map up1 (lit "date")) with (lit "DATE"). rewrite N. reflexivity.
    - apply (null_atom _ _ _ _ None). cbn [eval]. rewrite He. pose proof (da_null _ _ _ Da ct) as N. unfold sql_func in N. rewrite E1 in N.
      change (map up1 (lit "datetime")) with (lit "DATETIME"). rewrite N. reflexivity.
    - apply (null_atom _ _ _ _ (Some t)). cbn [eval]. rewrite He. reflexivity. }
  destruct Ia as [(b & _ & E)|[(b & _ & E)|[I|[I|I]]]]; eauto.
Qed.

(** *** rows *)
Lemma index_of_nth (g : colspec -> pystr) l c : distinct (map g l) = true -> In c l -> exists k, index_of (g c) (map g l) = Some k /\ nth_error l k = Some c.
Proof.
  intros D I. destruct (index_of (g c) (map g l)) as [k|] eqn:E.
  - destruct (index_of_cols g l _ k E) as (d & Ed & Sd). exists k. split; [reflexivity|]. rewrite Ed. f_equal. apply (distinct_inj g l d c D); [eapply nth_error_In; exact Ed|exact I|exact Sd].
  - exfalso. pose proof (proj1 (index_of_none _ _) E (g c) (in_map g l c I)) as X. unfold same_name in X. rewrite str_eqb_refl in X. discriminate X.
Qed.
Lemma Forall2_nth_err {A B} (Q : A -> B -> Prop) l m k a : Forall2 Q l m -> nth_error l k = Some a -> exists b, nth_error m k = Some b /\ Q a b.
Proof.
  intros H. revert k. induction H as [|x y l m Hxy H IH]; intros k E; [destruct k; discriminate E|].
  destruct k as [|k]; cbn in *; [injection E as <-; eauto|apply IH, E].
Qed.
Lemma row_checked tr s r x : cols_distinct tr s -> (forall c, In c (ts_cols s) -> cs_db_type c = db_type (cs_type c) (cs_separator c)) -> row_stored P St s r x ->
  (forall c v, In c (ts_cols s) -> dget str_eqb r (cs_name c) = Some v -> value_accepted date_str c v) -> checks_ok St (new_table tr s) x = true.
Proof.
  intros D T S V. unfold checks_ok. apply forallb_forall. intros cd Icd. cbn [new_table tb_cols] in *. apply in_map_iff in Icd. destruct Icd as (c & <- & Ic).
  unfold coldef_of at 2. cbn [cd_check]. destruct (cs_csvw c) as [i|] eqn:Hi; [|reflexivity].
  destruct (index_of_nth (fun c => tr (ts_name s) (Some (cs_name c))) (ts_cols s) c D Ic) as (k & Ek & En).
  destruct (Forall2_nth_err _ _ _ k c S En) as (v & Ev & Sv).
  assert (He : env_of (map (coldef_of tr (ts_name s)) (ts_cols s)) x (tr (ts_name s) (Some (cs_name c))) = Some (cs_db_type c, v)).
  { unfold env_of. rewrite map_map. cbn [coldef_of cd_name]. rewrite Ek, nth_error_map, En, Ev. reflexivity. }
  apply check_passes. intros a Ia. cbn beta in Sv. destruct (dget str_eqb r (cs_name c)) as [pv|] eqn:G.
  - specialize (V c pv Ic G). destruct pv as [|w|l]; cbn [value_accepted] in V.
    + destruct Sv as (b & u & C & B & Ev2). cbn in C. apply Ok_inj in C. subst b. apply Ok_inj in B. subst u.
      assert (A : v = SNull) by (rewrite Ev2; destruct (cs_db_type c); reflexivity). rewrite A in He. apply (null_passes _ _ _ _ _ He a Ia).
    + apply (column_passes _ c _ w v i (T c Ic) V Sv Hi He a Ia).
    + rewrite Hi in V. destruct V as (V1 & V2 & V3 & V4 & V5). unfold atoms in Ia. rewrite V1, V2 in Ia. rewrite !in_app_iff in Ia.
      destruct Ia as [I|[I|I]]; exfalso; revert I; apply no_length_atoms; assumption.
  - cbn in Sv. subst v. apply (null_passes _ _ _ _ _ He a Ia).
Qed.
End Db.
Lemma sval_dec (a b : sval) : {a = b} + {a <> b}.
Proof. decide equality; try apply str_eq_dec; [apply Z.eq_dec|]. destruct q as [n1 d1], q0 as [n2 d2]. destruct (Z.eq_dec n1 n2) as [->|N]; [|right; congruence]. destruct (Pos.eq_dec d1 d2) as [->|N]; [left; reflexivity|right; congruence]. Defined.
Lemma find_app {A} (f : A -> bool) l m : find f (l ++ m) = match find f l with Some x => Some x | None => find f m end.
Proof. induction l as [|a l IH]; [reflexivity|]. cbn [app find]. destruct (f a); [reflexivity|exact IH]. Qed.
