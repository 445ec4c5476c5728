(** Values, rows and lists as the database needs them (C65). *)
From Coq Require Import Permutation.
From Verif Require Import PyStr Json Dsv DsvProofs4 Datatype Column Schema Table TableProofs TableProofs4 JsonTextProofs Zip Files Descr DescrProofs Load Group Sql Db DbSql DbSqlSpec DbSpec DbProofs Sqlite DbWrite DbWriteSpec Cli
  FrictionlessProofs2 ToSqlite ToSqliteSpec ToSqliteProofs1 ToSqliteProofs2 ToSqliteProofs3 ToSqliteProofs4 ToSqliteProofs5.

Lemma split_aux_some sep : forall s cur n, split_aux sep cur s n <> [].
Proof. induction s as [|c s IH]; intros cur n; cbn [split_aux]; [discriminate|]. destruct n; [destruct (startswith sep (c :: s)); [discriminate|apply IH]|apply IH]. Qed.
Lemma join_cons sep p l : l <> [] -> join sep (p :: l) = p ++ sep ++ join sep l.
Proof. destruct l; [intros H; contradiction H; reflexivity|reflexivity]. Qed.
Lemma join_split_aux sep : sep <> [] -> forall s cur n, join sep (split_aux sep cur s n) = cur ++ skipn n s.
Proof.
  intros Ne. induction s as [|c s IH]; intros cur n; cbn [split_aux].
  - destruct n; cbn; rewrite ?app_nil_r; reflexivity.
  - destruct n as [|n]; [|apply IH]. destruct (startswith sep (c :: s)) eqn:E.
    + rewrite join_cons by apply split_aux_some. rewrite IH. cbn [app skipn]. f_equal. apply startswith_spec in E. destruct E as [r E]. destruct sep as [|x sep]; [contradiction Ne; reflexivity|].
      cbn [app] in E. injection E as -> ->. cbn [length Nat.sub app]. rewrite Nat.sub_0_r. rewrite skipn_app, Nat.sub_diag, skipn_all. reflexivity.
    + rewrite IH. cbn [skipn]. rewrite <- app_assoc. reflexivity.
Qed.
Lemma join_split sep s : sep <> [] -> join sep (split sep s) = s.
Proof. intros Ne. unfold split. rewrite (join_split_aux sep Ne). reflexivity. Qed.

Section P.
Variables (W : world value) (sc : scalars value) (P : py_fns).
Hypothesis (Tf : types_fit W) (Ss : forall s, s_str sc s = VStr s).
Notation col_for := (col_for W). Notation spec_for := (spec_for W).
Notation tr := name_translator.

(** ** Values *)
Lemma read_str o s v : dt_reads (load_dtype W o) s = Ok v -> exists f, w_parse W (Column.dt_base (load_dtype W o)) f (JStr s) = Ok v.
Proof.
  unfold load_dtype. destruct (o_vals o) as [|v0 l]; [discriminate|]. destruct v0 as [[]| | | | | | | | |]; try discriminate. destruct l as [|v1 l]; [discriminate|]. destruct v1; try discriminate.
  do 9 (destruct l as [|? l]; [discriminate|]). destruct l; [|discriminate]. cbn [dt_reads Column.dt_base]. unfold dt_read. intros H. apply bind_inv in H. destruct H as (x & E & H). exists j.
  assert (x = v); [|subst; exact E]. unfold validate in H. apply bind_inv in H. destruct H as (? & _ & H). destruct (minmax _); [do 6 (apply bind_inv in H; destruct H as (? & _ & H))|]; congruence.
Qed.
Lemma read_typed c d s x : col_for d c -> read_elem sc (st_datatype (tc_st c)) (Some s) = Ok (Some x) ->
  (type_of c = lit "string" -> x = VStr s) /\ (type_of c = lit "integer" -> exists z, x = VInt z) /\ (type_of c = lit "boolean" -> exists b, x = VBool b) /\ (type_of c = lit "hexBinary" -> exists b, x = VBytes b).
Proof.
  intros Cf H. unfold read_elem in H. unfold type_of. destruct (st_datatype (tc_st c)) as [t|] eqn:Et.
  - destruct (cf_read _ _ _ Cf t Et) as (o & ->). apply bind_inv in H. destruct H as (v & E & H). apply Ok_inj in H. injection H as ->. apply read_str in E. destruct E as (f & E).
    destruct (Column.dt_base (load_dtype W o)) as [|b0 b] eqn:Eb; [exfalso; apply (tf_empty _ Tf _ _ _ E)|].
    repeat split; intros Ety; rewrite Ety in E; [apply (tf_string _ Tf _ _ _ E)|apply (tf_integer _ Tf _ _ _ E)|apply (tf_boolean _ Tf _ _ _ E)|apply (tf_hexBinary _ Tf _ _ _ E)].
  - apply Ok_inj in H. injection H as <-. rewrite Ss. split; [intros _; reflexivity|]. split; [|split]; intros E; discriminate E.
Qed.
Lemma read_items c d l : forall l', col_for d c -> type_of c = lit "string" -> mapM (read_elem sc (st_datatype (tc_st c))) l = Ok l' -> ~ In None l' -> exists ts, l = map Some ts /\ l' = map (fun t => Some (VStr t)) ts.
Proof.
  induction l as [|o l IH]; intros l' Cf Ty H Nn; cbn [mapM] in H; [apply Ok_inj in H; subst; exists []; split; reflexivity|]. apply bind_inv in H. destruct H as (x & Ex & H). apply bind_inv in H. destruct H as (l1 & El & H). apply Ok_inj in H. subst l'.
  destruct (IH l1 Cf Ty El) as (ts & -> & ->); [intros I; apply Nn; right; exact I|]. destruct o as [s|]; [|apply Ok_inj in Ex; subst; exfalso; apply Nn; left; reflexivity].
  destruct x as [x|]; [|exfalso; apply Nn; left; reflexivity]. destruct (read_typed c d s x Cf Ex) as (H & _). rewrite (H Ty). exists (s :: ts). split; reflexivity.
Qed.
Lemma parts_some (st : @settings value) l ts : st_default st = [] -> map (fun v => nulled st (or_default st v)) l = map Some ts -> l = ts.
Proof.
  intros D. revert ts. induction l as [|v l IH]; intros [|t ts] H; try discriminate H; [reflexivity|]. cbn [map] in H. injection H as E H. rewrite (IH ts H). f_equal.
  assert (Ev : or_default st v = v) by (unfold or_default; destruct v; [exact D|reflexivity]). rewrite Ev in E. unfold nulled in E. destruct (str_mem v (st_null st)); congruence.
Qed.
Lemma is_type_eq t n : is_type t n = true <-> t = n.
Proof. apply str_eqb_eq. Qed.
Lemma typed_value c d v : col_for d c -> (tc_virtual c = true -> st_separator (tc_st c) = None /\ type_of c = lit "string") -> typed sc c v -> value_kept P c v -> value_ok P (colspec_of d) v.
Proof.
  intros Cf Vi Ty Kp. unfold value_ok. destruct v as [|x|l]; [exact I| |].
  - assert (Both : st_separator (tc_st c) = None /\ ((type_of c = lit "string" -> exists t, x = VStr t) /\ (type_of c = lit "integer" -> exists z, x = VInt z) /\ (type_of c = lit "boolean" -> exists b, x = VBool b) /\ (type_of c = lit "hexBinary" -> exists b, x = VBytes b))).
    { destruct Ty as [Ty|[(t & Ty)|(Ev & s & Ty)]]; [discriminate Ty| |].
      - unfold col_read in Ty. destruct (_ && _); [discriminate Ty|]. destruct (st_separator (tc_st c)) as [sep|].
        { exfalso. destruct (or_default (tc_st c) t); [discriminate Ty|]. destruct (str_mem _ _); [discriminate Ty|]. destruct (mapM _ _) as [l|[]]; discriminate Ty. }
        split; [reflexivity|]. cbn [fst] in Ty. apply bind_inv in Ty. destruct Ty as (o & E & Ty). apply Ok_inj in Ty. destruct o as [y|]; [|discriminate Ty]. injection Ty as ->.
        destruct (nulled (tc_st c) (or_default (tc_st c) t)) as [s|]; [|discriminate E]. destruct (read_typed c d s x Cf E) as (A & B & C & D). repeat split; try assumption. intros Et. exists s. apply A, Et.
      - destruct (Vi Ev) as [A B]. split; [exact A|]. injection Ty as ->. rewrite Ss, B. split; [intros _; exists s; reflexivity|]. split; [|split]; intros E; discriminate E. }
    destruct Both as (Sp & T1 & T2 & T3 & T4). split; [cbn [colspec_of new_colspec cs_separator]; rewrite (cf_sep _ _ _ Cf), Sp; reflexivity|]. rewrite (cf_type _ _ _ Cf).
    destruct (is_type (type_of c) (lit "string")) eqn:E1; [apply is_type_eq in E1; apply T1, E1|]. destruct (is_type (type_of c) (lit "integer")) eqn:E2; [apply is_type_eq in E2; apply T2, E2|].
    destruct (is_type (type_of c) (lit "hexBinary")) eqn:E3; [apply is_type_eq in E3; apply T4, E3|]. destruct (is_type (type_of c) (lit "boolean")) eqn:E4; [apply is_type_eq in E4; apply T3, E4|].
    assert (Ne : forall n, is_type (type_of c) n = false -> type_of c <> n) by (intros n E H; apply is_type_eq in H; congruence).
    destruct (is_type (type_of c) (lit "decimal")) eqn:E5.
    + apply is_type_eq in E5. destruct Kp as [Kp|[(_ & Kp)|(Kp & _)]]; [|exact Kp|].
      * rewrite E5 in Kp. exfalso. repeat (destruct Kp as [Kp|Kp]; [discriminate Kp|]). exact Kp.
      * exfalso. apply Kp. rewrite E5. do 4 right. left. reflexivity.
    + destruct Kp as [Kp|[(Kp & _)|(Kp & Rt)]].
      * exfalso. repeat (destruct Kp as [Kp|Kp]; [symmetry in Kp; revert Kp; apply Ne; assumption|]). exact Kp.
      * exfalso. apply (Ne _ E5 Kp).
      * split; [|exact Rt]. destruct (is_type (type_of c) (lit "time")) eqn:E6; [|reflexivity]. apply is_type_eq in E6. exfalso. apply Kp. rewrite E6. do 5 right. left. reflexivity.
  - destruct Ty as [Ty|[(t & Ty)|(Ev & s & Ty)]]; [discriminate Ty| |discriminate Ty]. unfold col_read in Ty. destruct (_ && _); [discriminate Ty|].
    destruct (st_separator (tc_st c)) as [sep|] eqn:Sp; [|exfalso; cbn [fst] in Ty; apply bind_inv in Ty; destruct Ty as ([y|] & _ & Ty); discriminate Ty].
    destruct sep as [|x0 sep]; [exfalso; apply (cf_some _ _ _ Cf Sp)|]. exists x0, sep. split; [cbn [colspec_of new_colspec cs_separator]; rewrite (cf_sep _ _ _ Cf); exact Sp|]. rewrite (cf_type _ _ _ Cf).
    destruct (is_type (type_of c) (lit "string")) eqn:E1.
    + apply is_type_eq in E1. destruct Kp as [(_ & Nn & Df)|(Kp & _)]; [|contradiction]. remember (or_default (tc_st c) t) as tx eqn:Etx. destruct tx as [|y tx].
      { cbn [fst] in Ty. apply Ok_inj in Ty. injection Ty as <-. exists []. split; [reflexivity|left; reflexivity]. }
      destruct (str_mem (y :: tx) (st_null (tc_st c))); [discriminate Ty|]. destruct (mapM _ _) as [l'|[]] eqn:Em; try discriminate Ty. cbn [fst] in Ty. apply Ok_inj in Ty. injection Ty as ->.
      destruct (read_items c d _ _ Cf E1 Em Nn) as (ts & Ep & ->). apply (parts_some _ _ _ Df) in Ep. exists ts. split; [reflexivity|]. right. subst ts.
      assert (J : join (x0 :: sep) (split (x0 :: sep) (y :: tx)) = y :: tx) by (apply join_split; discriminate). split; [|rewrite J; reflexivity].
      intros E. rewrite E in J. discriminate J.
    + destruct Kp as [(Kp & _)|(_ & Kp)]; [apply is_type_eq in Kp; congruence|exact Kp].
Qed.

(** ** Rows *)
Section Table.
Variables (ks : list ktable) (k : ktable) (s : tablespec) (rows : list drow).
Hypothesis (Nf : names_fit ks) (Ik : In k ks) (Sf : spec_for s k) (Rf : rows_fit P k rows)
  (Td : forall r, In r rows -> tdict sc (columns k) r /\ NoDup (map fst r)).
Lemma steps : rows_step rows.
Proof.
  intros r0 rest r E I. split; [|apply Td, I]. subst rows. destruct I as [<-|I].
  - exists r0, [], [], []. rewrite !app_nil_r. repeat split; constructor.
  - apply (rf_step _ _ _ Rf r0 rest r eq_refl I).
Qed.
Lemma in_aligned r : In r (aligned rows) -> exists r', In r' rows /\ forall n, dget str_eqb r n = dget str_eqb r' n.
Proof.
  pose proof steps as St. destruct rows as [|r0 rest] eqn:E; [intros []|]. unfold aligned. intros I. apply in_map_iff in I. destruct I as (r' & <- & I). exists r'. split; [exact I|].
  apply align_same, (St r0 rest r' eq_refl I).
Qed.
Lemma virtual_plain c : In c (columns k) -> tc_virtual c = true -> st_separator (tc_st c) = None /\ type_of c = lit "string".
Proof. apply (nf_virtual _ Nf k c Ik). Qed.
Lemma header_unique c c' : In c (columns k) -> In c' (columns k) -> tc_header c = tc_header c' -> c = c'.
Proof. apply header_inj, (nf_headers _ Nf k Ik). Qed.
Lemma rows_good : rows_ok P s (aligned rows).
Proof.
  constructor.
  - destruct rows as [|r0 rest] eqn:E; [exists []; split; [constructor|intros r []]|]. exists (map fst r0). split; [apply Td; left; reflexivity|]. unfold aligned. intros r I. apply in_map_iff in I. destruct I as (r' & <- & _).
    unfold align. rewrite map_map. cbn [fst]. apply map_id.
  - intros r c Ir Ic. destruct (in_aligned r Ir) as (r' & Ir' & G). destruct (sf_in _ _ _ Sf c Ic) as (d & x & -> & Cf & Ix & Nl). unfold value_or_none. rewrite G. cbn [colspec_of new_colspec cs_name]. rewrite (cf_header _ _ _ Cf).
    destruct (dget str_eqb r' (tc_header x)) as [v|] eqn:Ev; [|exact I]. apply (typed_value x d v Cf (virtual_plain x Ix)); [apply (proj1 (Td r' Ir') x v Ix Ev)|apply (rf_values _ _ _ Rf r' x v Ir' Ix Nl Ev)].
  - intros r c Ir Ic Ep. destruct (in_aligned r Ir) as (r' & Ir' & G). destruct (sf_in _ _ _ Sf c Ic) as (d & x & -> & Cf & Ix & Nl). rewrite (sf_pk _ _ _ Sf) in Ep. apply key_columns_one in Ep.
    destruct (rf_key _ _ _ Rf r' _ Ir' Ep) as (v & Ev). rewrite G, Ev. split; [|discriminate]. cbn [colspec_of new_colspec cs_name] in Ev. rewrite (cf_header _ _ _ Cf) in Ev.
    pose proof (typed_value x d _ Cf (virtual_plain x Ix) (proj1 (Td r' Ir') x _ Ix Ev) (rf_values _ _ _ Rf r' x _ Ir' Ix Nl Ev)) as V. apply V.
Qed.
Lemma lists_good : lists_ok tr s (aligned rows).
Proof.
  constructor.
  - destruct (ts_m2m s) as [|[h a] m] eqn:Em; [left; reflexivity|right]. assert (L : is_list_key k h) by (apply (sf_keys _ _ _ Sf); rewrite Em; left; reflexivity). destruct L as (res & rc & L).
    destruct (nf_lists _ Nf k h res rc Ik L) as (_ & _ & x & Ix & Ek & Sp & Ty). destruct (nf_keys _ Nf k (tc_header x) Ik) as (_ & Nl); [unfold key_columns; rewrite Ek; left; reflexivity|].
    destruct (sf_of _ _ _ Sf x Ix Nl) as (d & Id & Cf). exists (colspec_of d). split; [exact Id|].
    assert (Eh : cs_name (colspec_of d) = tc_header x) by (cbn [colspec_of new_colspec cs_name]; apply (cf_header _ _ _ Cf)). rewrite Eh, (cf_type _ _ _ Cf), (sf_pk _ _ _ Sf). unfold key_columns. rewrite Ek.
    split; [reflexivity|]. split; [exact Ty|]. split; [cbn [colspec_of new_colspec cs_separator]; rewrite (cf_sep _ _ _ Cf), Sp; reflexivity|].
    intros r Ir. destruct (in_aligned r Ir) as (r' & Ir' & G). destruct (rf_key _ _ _ Rf r' _ Ir' Ek) as (v & Ev). rewrite G, Ev.
    pose proof (typed_value x d _ Cf (virtual_plain x Ix) (proj1 (Td r' Ir') x _ Ix Ev) (rf_values _ _ _ Rf r' x _ Ir' Ix Nl Ev)) as [_ V]. rewrite (cf_type _ _ _ Cf), Ty in V. cbn in V. destruct V as (t & ->). exists t. reflexivity.
  - intros r h a Ir Ia. destruct (in_aligned r Ir) as (r' & Ir' & G). unfold value_or_none. rewrite G. destruct (dget str_eqb r' h) as [[|x|l]|] eqn:Ev; [left; reflexivity| | |left; reflexivity].
    + exfalso. assert (L : is_list_key k h) by (apply (sf_keys _ _ _ Sf); apply (in_map fst) in Ia; exact Ia). destruct L as (res & rc & fk & c & _ & _ & _ & _ & _ & Ic & Hh & y & sp & Es).
      rewrite <- Hh in Ev. destruct (proj1 (Td r' Ir') c _ Ic Ev) as [T|[(t & T)|(Evi & t & T)]]; [discriminate T| |].
      * assert (Sp : st_separator (tc_st c) = Some (y :: sp)). { destruct (sf_sep _ _ _ Sf c Ic) as (d & Cf). apply (cf_inh _ _ _ Cf _ _ Es). }
        unfold col_read in T. rewrite Sp in T. destruct (_ && _); [discriminate T|]. destruct (or_default (tc_st c) t); [discriminate T|]. destruct (str_mem _ _); [discriminate T|]. destruct (mapM _ _) as [l|[]]; discriminate T.
      * destruct (virtual_plain c Ic Evi) as (Sp & _). destruct (sf_sep _ _ _ Sf c Ic) as (d & Cf). pose proof (cf_inh _ _ _ Cf _ _ Es). congruence.
    + right. assert (L : is_list_key k h) by (apply (sf_keys _ _ _ Sf); apply (in_map fst) in Ia; exact Ia). pose proof (rf_lists _ _ _ Rf r' h l) as H.
      assert (X : forall o, In o l -> exists t, o = Some (VStr t) /\ no_space t) by (intros o Io; apply (H o Ir' L Ev Io)). clear -X. induction l as [|o l IH]; [exists []; split; [reflexivity|constructor]|].
      destruct (IH (fun o I => X o (or_intror I))) as (ts & E & F). injection E as ->. destruct (X o (or_introl eq_refl)) as (t & -> & Ns). exists (t :: ts). split; [reflexivity|constructor; assumption].
  - split; [apply (sf_nodup _ _ _ Sf)|]. intros h a Ia. assert (L : is_list_key k h) by (apply (sf_keys _ _ _ Sf); apply (in_map fst) in Ia; exact Ia).
    assert (Uh : usable h). { destruct L as (res & rc & fk & c & _ & _ & _ & _ & _ & Ic & <- & _). apply (nf_columns _ Nf k c Ik Ic). }
    split; [apply usable_tr, Uh|]. split; [|split; [|split; [apply Uh|reflexivity]]].
    + intros c Ic. destruct (sf_in _ _ _ Sf c Ic) as (d & x & -> & Cf & Ix & Nl). cbn [colspec_of new_colspec cs_name]. rewrite (cf_header _ _ _ Cf), usable_tr by (apply (nf_columns _ Nf k x Ik Ix)).
      assert (tc_header x <> h) by (intros E; apply Nl; rewrite E; exact L). split; assumption.
    + destruct L as (res & rc & L). apply (nf_lists _ Nf k h res rc Ik L).
Qed.
(** ** What is read *)
Lemma row_same r r' o : (forall n, dget str_eqb r n = dget str_eqb r' n) -> row_back tr s r o -> row_kept k r' o.
Proof.
  intros G (lists & Eo & Fl). assert (En : map fst o = map cs_name (ts_cols s) ++ map fst (ts_m2m s)).
  { subst o. rewrite map_app. f_equal.
    - unfold cells. rewrite map_map. cbn [fst]. apply map_ext_in. intros c Ic. destruct (sf_in _ _ _ Sf c Ic) as (d & x & -> & Cf & Ix & _). cbn [colspec_of new_colspec cs_name]. rewrite (cf_header _ _ _ Cf).
      apply usable_tr, (nf_columns _ Nf k x Ik Ix).
    - rewrite map_map. cbn [fst]. clear -Fl. induction Fl as [|a b l l' [E _] Fl IH]; [reflexivity|]. cbn [map]. rewrite E. f_equal. exact IH. }
  destruct (nf_headers _ Nf k Ik) as (Nh & _).
  assert (Nk : NoDup (map fst o)).
  { rewrite En. pose proof (sf_distinct _ _ _ Sf Nh) as N1. pose proof (sf_nodup _ _ _ Sf) as N2.
    assert (Dj : forall n, In n (map cs_name (ts_cols s)) -> ~ In n (map fst (ts_m2m s))).
    { intros n I Im. apply in_map_iff in I. destruct I as (c & <- & Ic). destruct (sf_in _ _ _ Sf c Ic) as (d & x & -> & Cf & Ix & Nl). apply Nl. apply (sf_keys _ _ _ Sf). rewrite <- (cf_header _ _ _ Cf). exact Im. }
    clear -N1 N2 Dj. induction N1 as [|a l Na N1 IH]; [exact N2|]. cbn [app]. constructor; [|apply IH; intros n I; apply Dj; right; exact I].
    intros I. apply in_app_iff in I. destruct I as [I|I]; [contradiction|]. apply (Dj a); [left; reflexivity|exact I]. }
  constructor.
  - apply NoDup_Permutation; [exact Nk|exact Nh|]. intros n. rewrite En, in_app_iff. split.
    + intros [I|I].
      * apply in_map_iff in I. destruct I as (c & <- & Ic). destruct (sf_in _ _ _ Sf c Ic) as (d & x & -> & Cf & Ix & _). cbn [colspec_of new_colspec cs_name]. rewrite (cf_header _ _ _ Cf). apply in_map, Ix.
      * apply (sf_keys _ _ _ Sf) in I. destruct I as (res & rc & fk & c & _ & _ & _ & _ & _ & Ic & <- & _). apply in_map, Ic.
    + intros I. apply in_map_iff in I. destruct I as (x & <- & Ix). destruct (is_list_key_dec _ _ _ Sf (tc_header x)) as [L|Nl]; [right; apply (sf_keys _ _ _ Sf), L|left].
      destruct (sf_of _ _ _ Sf x Ix Nl) as (d & Id & Cf). apply in_map_iff. exists (colspec_of d). split; [cbn [colspec_of new_colspec cs_name]; apply (cf_header _ _ _ Cf)|exact Id].
  - intros x Ix Nl. apply (dget_In_unique o _ _ Nk). destruct (sf_of _ _ _ Sf x Ix Nl) as (d & Id & Cf). subst o. apply in_app_iff. left. unfold cells. apply in_map_iff. exists (colspec_of d). split; [|exact Id].
    cbn [colspec_of new_colspec cs_name]. rewrite (cf_header _ _ _ Cf), usable_tr by (apply (nf_columns _ Nf k x Ik Ix)). unfold value_or_none. rewrite G. reflexivity.
  - intros h L. apply (sf_keys _ _ _ Sf) in L. apply in_map_iff in L. destruct L as ([h' a] & Eh & Ia). cbn [fst] in Eh. subst h'. destruct (Forall2_in_l _ _ _ Fl _ Ia) as ([h' keys] & Il & Eh & Pm). cbn [fst snd] in *. subst h'.
    exists keys. split.
    + apply (dget_In_unique o _ _ Nk). subst o. apply in_app_iff. right. apply in_map_iff. exists (h, keys). split; [reflexivity|exact Il].
    + unfold listed, value_or_none in *. rewrite <- G. exact Pm.
Qed.
End Table.
End P.
