(** C42: CHECK constraints never reject values that the datatype accepts.

    A column of a table description, the datatype of its column in the metadata ([describes]: CheckSpec.v), and the CHECK constraint in the SQL that
    db.py generates, evaluated by the database (Sqlite.v) on what db.py stores for the value.
    [reals]: what is assumed of floating-point numbers; [dates]: what is assumed of date() and datetime() of SQLite. *)
From Coq Require Import QArith Qpower.
From Verif Require Import PyStr Dsv DsvProofs4 Dec DecProofs NumericSpec DecProofs2 Dates Datatype Column Group Sql Db DbSql DbSqlSpec SqlProofs DbSqlProofs DbSqlProofs2
  Sqlite SqliteProofs DbWrite DbWriteSpec DbWriteProofs3 CheckSpec CheckProofs.
Open Scope N_scope.

(** The table that is created by the SQL generated for its description, and a row of it, with None, or no value, or a value which the datatype of
    the column accepts, in every column: no CHECK constraint of the table is violated. *)
Theorem c42_row rnd date_str P St tr s c c' t r x :
  reals rnd P St -> dates date_str P St -> sql_clean tr s ->
  (forall cs, In cs (ts_cols s) -> cs_db_type cs = db_type (cs_type cs) (cs_separator cs)) ->
  find_table (tr (ts_name s) None) (current c) = None -> execute St c (table_sql tr s) = (c', Ok tt) ->
  find_table (tr (ts_name s) None) (current c') = Some t ->
  row_stored P St s r x ->
  (forall cs v, In cs (ts_cols s) -> dget str_eqb r (cs_name cs) = Some v -> value_accepted date_str cs v) ->
  checks_ok St t x = true.
Proof.
  intros R Da Hs T Hn He Ht Sx V. unfold execute in He. rewrite (create_parses tr s Hs) in He. unfold create_of in He.
  match type of He with context [create ?a ?b ?c ?d ?e ?f] => destruct (create a b c d e f) as [D|e0] eqn:E end; [|discriminate He].
  injection He as <-. apply create_inv in E. destruct E as [[_ [t0 E]]|(_ & Ed & _ & ED)]; [rewrite Hn in E; discriminate E|].
  assert (Ec : current (set_current c D) = D) by (unfold current, set_current; destruct (c_work c); reflexivity).
  rewrite Ec, ED in Ht. unfold find_table in Ht, Hn. rewrite find_app, Hn in Ht. cbn [find tb_name] in Ht. unfold same_name in Ht. rewrite str_eqb_refl in Ht. injection Ht as <-.
  fold (new_table tr s). apply (row_checked P St rnd R date_str Da tr s r x); try assumption. unfold cols_distinct. rewrite map_map in Ed. exact Ed.
Qed.
Print Assumptions c42_row.
(** So an INSERT of the row can fail only because of the row number, NOT NULL, the primary key, or foreign keys. *)
Theorem c42_insert St D t x e : checks_ok St t x = true -> new_row St D t x = Err e ->
  number_row t x <> Ok x \/ not_null_ok t x = false \/ unique_ok t x = false \/ all_fks St (add_rows (tb_name t) [x] D) t x (tb_fks t) = Err e.
Proof.
  intros C H. unfold new_row in H. destruct (number_row t x) as [x'|e'] eqn:E; [|left; discriminate]. cbn [bind] in H.
  destruct (list_eq_dec sval_dec x' x) as [->|N]; [|left; intros X; injection X as X; contradiction].
  right. destruct (not_null_ok t x); [|auto]. rewrite C in H. destruct (unique_ok t x); [|auto]. cbn [negb] in H.
  destruct (all_fks St (add_rows (tb_name t) [x] D) t x (tb_fks t)) as [[]|e'']; cbn [bind] in H; [discriminate H|]. injection H as <-. auto.
Qed.
Print Assumptions c42_insert.

(** *** the hypotheses can be met: exact numbers, and dates as the sequence of their parts *)
Definition exact_literal (t : pystr) : Q :=
  let ip := span_digits t in
  let fp := match snd ip with c :: r => if c =? 46 then span_digits r else ([], c :: r) | [] => ([], []) end in
  let ex := match snd fp with _ :: sg :: r => if sg =? 45 then (- Z.of_N (val_digits r))%Z else Z.of_N (val_digits r) | _ => 0%Z end in
  dec_q false (val_digits (fst ip ++ fst fp)) (ex - Z.of_nat (length (fst fp))).
Definition parts (x : dt) : pystr := [200 + y x; 200 + mo x; 200 + d x; 200 + h x; 200 + mi x; 200 + s x; 200 + us x].
Definition exact_py : py_fns :=
  {| to_string := fun t v => match v with VDate x => Ok (parts x) | VInt z => Ok (int_str z) | VStr t => Ok t | _ => Err TypeError end; to_python := fun _ t => Ok (VStr t);
     py_float := fun v => match v with VDec (Fin n c e) => Ok (dec_q n c e) | VInt z => Ok (inject_Z z) | _ => Err TypeError end;
     py_int := fun _ => Err TypeError; of_float := fun _ => VStr []; decimal_of := fun _ => Err TypeError; dumps := fun _ => Err TypeError; loads := fun _ => Err TypeError;
     adapt := parts |}.
Definition exact_store : store_fns :=
  {| real_text := fun q => int_str (Qnum q); text_number := fun _ => None; literal_real := exact_literal; int_real := inject_Z; date_fn := fun _ v => v;
     scan := fun l => l; group_scan := fun l => l |}.
Lemma all_digits_span a rest : all_digits a = true -> match rest with c :: _ => is_digit c = false | [] => True end -> span_digits (a ++ rest) = (a, rest).
Proof.
  intros H Hr. induction a as [|x a IH]; cbn [app].
  - destruct rest as [|c r]; [reflexivity|]. cbn [span_digits]. rewrite Hr. reflexivity.
  - cbn [all_digits forallb] in H. apply andb_prop in H. destruct H as [Hx H]. cbn [span_digits]. rewrite Hx, (IH H). reflexivity.
Qed.
Lemma numeral_all ip pt fp : numeral_ok ip pt fp -> all_digits ip = true /\ all_digits fp = true.
Proof.
  intros (H & _). apply Forall_app in H. destruct H as [H1 H2].
  assert (G : forall l, Forall (fun c => 48 <= c <= 57) l -> all_digits l = true).
  { induction 1 as [|c l Hc _ IH]; [reflexivity|]. cbn [all_digits forallb]. apply andb_true_intro. split; [|exact IH]. unfold is_digit. apply andb_true_intro. split; apply N.leb_le; lia. }
  split; apply G; assumption.
Qed.
Lemma span_point ip fp rest : all_digits ip = true -> all_digits fp = true -> match rest with c :: _ => is_digit c = false /\ c <> 46 | [] => True end ->
  let ip' := span_digits (ip ++ point_part fp ++ rest) in
  fst ip' = ip /\ match snd ip' with c :: r => if c =? 46 then span_digits r else ([], c :: r) | [] => ([], []) end = (fp, rest).
Proof.
  intros Hi Hf Hr. cbv zeta. destruct fp as [|f fp]; cbn [point_part].
  - cbn [app]. rewrite all_digits_span; [|exact Hi|destruct rest; [exact I|apply Hr]]. split; [reflexivity|]. cbn [snd]. destruct rest as [|c r]; [reflexivity|].
    destruct Hr as [_ Hr]. apply N.eqb_neq in Hr. rewrite Hr. reflexivity.
  - change (ip ++ (lit "." ++ f :: fp) ++ rest) with (ip ++ 46 :: (f :: fp) ++ rest). rewrite all_digits_span; [|exact Hi|reflexivity]. split; [reflexivity|]. cbn [snd].
    change (46 =? 46) with true. cbn iota. apply (all_digits_span (f :: fp) rest Hf). destruct rest; [exact I|apply Hr].
Qed.
Lemma exact_literal_str c e : (exact_literal (dec_str (Fin false c e)) == dec_q false c e)%Q.
Proof.
  unfold dec_str, dec_format. cbn [sign_str app]. assert (P : printed_plainly c e \/ ~ printed_plainly c e) by (unfold printed_plainly; lia).
  destruct P as [P|P].
  - destruct (dec_parts_plain c e P) as (ip & fp & Ed & Hn & _ & Hv & Hl). rewrite Ed. cbn [fst snd]. destruct (numeral_all _ _ _ Hn) as [A1 A2].
    destruct (span_point ip fp [] A1 A2 I) as [S1 S2]. rewrite app_nil_r in S1, S2. unfold exact_literal. rewrite S1, S2. cbn [fst snd]. rewrite Hv, Hl.
    replace (0 - - e)%Z with e by lia. reflexivity.
  - destruct (dec_parts_sci c e P) as (x & ds & Ed & Ep & _). rewrite Ep. cbn [fst snd]. pose proof (digits_of_all c) as A. rewrite Ed in A. cbn [all_digits forallb] in A.
    apply andb_prop in A. destruct A as [A1 A2].
    destruct (span_point [x] ds (lit "E" ++ int_str_plus (e + Z.of_nat (length ds)))) as [S1 S2]; [cbn; rewrite A1; reflexivity|exact A2|split; [reflexivity|discriminate]|].
    unfold exact_literal. rewrite S1, S2. cbn [fst snd lit app]. change ([x] ++ ds) with (x :: ds). rewrite <- Ed, val_digits_of.
    set (z := (e + Z.of_nat (length ds))%Z).
    assert (Ez : match int_str_plus z with sg :: r => if sg =? 45 then (- Z.of_N (val_digits r))%Z else Z.of_N (val_digits r) | [] => 0%Z end = z).
    { unfold int_str_plus. destruct z as [|p|p]; cbn [Z.ltb Z.compare int_str]; [reflexivity| |].
      - change (43 =? 45) with false. cbn iota. rewrite val_digits_of. reflexivity.
      - change (45 =? 45) with true. cbn iota. rewrite val_digits_of. reflexivity. }
    assert (G : match lit "E" ++ int_str_plus z with _ :: sg :: r => if sg =? 45 then (- Z.of_N (val_digits r))%Z else Z.of_N (val_digits r) | _ => 0%Z end = z).
    { cbn [lit app]. destruct (int_str_plus z) as [|sg r]; exact Ez. }
    cbn [lit app] in G |- *. rewrite G. unfold z. replace (e + Z.of_nat (length ds) - Z.of_nat (length ds))%Z with e by lia. reflexivity.
Qed.
Lemma N_compare_add u v : (200 + u ?= 200 + v) = (u ?= v).
Proof. destruct (N.compare_spec u v), (N.compare_spec (200 + u) (200 + v)); try reflexivity; lia. Qed.
Lemma str_cmp_parts a b : str_cmp (parts a) (parts b) = dt_cmp a b.
Proof. unfold parts, dt_cmp, Datatype.lex. cbn [str_cmp fold_right]. rewrite !N_compare_add. repeat (match goal with |- context [N.compare ?u ?v] => destruct (N.compare u v) end; try reflexivity). Qed.
Example exact_reals : reals (fun q => q) exact_py exact_store.
Proof.
  constructor.
  - intros a b H. exact H.
  - intros a. reflexivity.
  - intros z _. reflexivity.
  - reflexivity.
  - intros n c e q H. cbn in H. apply Ok_inj in H. subst q. reflexivity.
  - intros [n c e| |] q H; cbn in H; try discriminate H. exists n, c, e. reflexivity.
  - apply exact_literal_str.
Qed.
Example exact_dates : dates parts exact_py exact_store.
Proof.
  constructor.
  - reflexivity.
  - intros t x _ _. exists (parts x). split; [reflexivity|]. intros u H. cbn in H. apply Ok_inj in H. subst u. reflexivity.
  - intros t x x' r r' _ _ _ H E E'. cbn in E, E'. injection E as <-. injection E' as <-. rewrite str_cmp_parts. exact H.
Qed.

Definition info base mn mx len minl maxl : dtinfo := {| di_base := lit base; di_min := mn; di_max := mx; di_length := len; di_minLength := minl; di_maxLength := maxl |}.
Definition facets_of mn mx len minl maxl : facets value :=
  {| fc_length := len; fc_minLength := minl; fc_maxLength := maxl; fc_minimum := mn; fc_maximum := mx; fc_minInclusive := None; fc_maxInclusive := None; fc_minExclusive := None; fc_maxExclusive := None |}.
Definition ccol n t sep i : colspec := new_colspec (lit n) (Some (lit t)) sep false (Some i).
Definition day (a b c : N) : dt := {| y := a; mo := b; d := c; h := 0; mi := 0; s := 0; us := 0 |}.
(** an integer from 1 to 10; a decimal from 0.5; a date from 2020-01-01; a string of 2 or 3 characters; one byte; a list of strings *)
Definition table6 : tablespec :=
  {| ts_name := lit "t"; ts_fks := []; ts_m2m := []; ts_pk := [];
     ts_cols := [ccol "n" "integer" None (info "integer" (Some (lit "1")) (Some (lit "10")) None None None);
                 ccol "q" "decimal" None (info "decimal" (Some (lit "0.5")) None None None None);
                 ccol "d" "date" None (info "date" (Some (parts (day 2020 1 1))) None None None None);
                 ccol "w" "string" None (info "string" None None None (Some 2%Z) (Some 3%Z));
                 ccol "b" "hexBinary" None (info "hexBinary" None None (Some 1%Z) None None);
                 ccol "l" "string" (Some (lit ";")) (info "string" None None None None None)] |}.
Definition row6 n q e w b : drow :=
  [(lit "n", POne (VInt n)); (lit "q", POne (VDec q)); (lit "d", POne (VDate e)); (lit "w", POne (VStr (lit w))); (lit "b", POne (VBytes b));
   (lit "l", PList [Some (VStr (lit "a")); Some (VStr (lit "b"))])].
Definition good : drow := row6 10 (Fin false 75 (-2)) (day 2020 2 1) "abc" [255].
Definition stored6 n q e w b : row := [SInt n; SReal q; SText (parts e); SText (lit w); SBlob b; SText (lit "a;b")].
Ltac clean_tac := split; vm_compute; intuition discriminate.
Ltac bnd := intros b E; vm_compute in E; try discriminate E; injection E as <-; split; cbn; auto; try (left; discriminate).
Ltac ac F := exists F; eexists; (split; [constructor; reflexivity|]); (split; [reflexivity|]); (split; [vm_compute; reflexivity|]); (split; [try solve [bnd]|]); (split; [try solve [bnd]|]).
Example c42_nonvacuous : exists c' t,
  sql_clean name_translator table6 /\
  (forall cs, In cs (ts_cols table6) -> cs_db_type cs = db_type (cs_type cs) (cs_separator cs)) /\
  execute exact_store new_conn (table_sql name_translator table6) = (c', Ok tt) /\
  find_table (name_translator (ts_name table6) None) (current c') = Some t /\
  row_stored exact_py exact_store table6 good (stored6 10 (dec_q false 75 (-2)) (day 2020 2 1) "abc" [255]) /\
  (forall cs v, In cs (ts_cols table6) -> dget str_eqb good (cs_name cs) = Some v -> value_accepted parts cs v) /\
  (* each constraint can be violated *)
  checks_ok exact_store t (stored6 11 (dec_q false 75 (-2)) (day 2020 2 1) "abc" [255]) = false /\
  checks_ok exact_store t (stored6 10 (dec_q false 49 (-2)) (day 2020 2 1) "abc" [255]) = false /\
  checks_ok exact_store t (stored6 10 (dec_q false 75 (-2)) (day 2019 2 1) "abc" [255]) = false /\
  checks_ok exact_store t (stored6 10 (dec_q false 75 (-2)) (day 2020 2 1) "abcd" [255]) = false /\
  checks_ok exact_store t (stored6 10 (dec_q false 75 (-2)) (day 2020 2 1) "abc" [255; 0]) = false.
Proof.
  eexists _, _. split.
  { split.
    - clean_tac.
    - intros c I. destruct I as [<-|[<-|[<-|[<-|[<-|[<-|[]]]]]]]; (split; [clean_tac|]); split; intros s E; vm_compute in E; try discriminate E; injection E as <-;
        cbn; try (split; vm_compute; intuition discriminate); reflexivity.
    - discriminate.
    - intros c [].
    - intros fk []. }
  split. { intros cs I. repeat (destruct I as [<-|I]; [reflexivity|]). destruct I. }
  split; [vm_compute; reflexivity|]. split; [vm_compute; reflexivity|]. split.
  { repeat constructor; eexists _, _; (split; [reflexivity|]); split; reflexivity. }
  split; [|vm_compute; repeat split; reflexivity].
  intros cs v I. destruct I as [<-|[<-|[<-|[<-|[<-|[<-|[]]]]]]]; intros E; vm_compute in E; injection E as <-; cbn [value_accepted].
  - constructor; [reflexivity|reflexivity|]. ac (facets_of (Some (VInt 1)) (Some (VInt 10)) None None None). left. repeat split; auto.
  - constructor; [reflexivity|reflexivity|]. ac (facets_of (Some (VDec (Fin false 5 (-1)))) None None None None). left. repeat split; auto.
  - constructor; [reflexivity|split; [left|]; reflexivity|]. ac (facets_of (Some (VDate (day 2020 1 1))) None None None None). left. repeat split; auto.
  - constructor; [reflexivity|split; [reflexivity|split; [cbn; intuition discriminate|reflexivity]]|]. ac (facets_of None None None (Some 2%Z) (Some 3%Z)). right. left. reflexivity.
  - constructor; [reflexivity|split; reflexivity|]. ac (facets_of None None (Some 1%Z) None None). right. right. reflexivity.
  - repeat split; auto.
Qed.

(** *** what the theorem does not cover *)
Definition one_table c : tablespec := {| ts_name := lit "t"; ts_fks := []; ts_m2m := []; ts_pk := []; ts_cols := [c] |}.
Definition rejected P St c v : Prop := exists x, row_stored P St (one_table c) [(cs_name c, v)] [x] /\ checks_ok St (new_table name_translator (one_table c)) [x] = false.
(** Numbers of other types than integer and decimal are stored as text, and compared as text: 10 is valid for a minimum of 5, and rejected. *)
Example c42_int_refuted P St : to_string P (lit "int") (VInt 10) = Ok (lit "10") ->
  validate value_ops CDecimal (facets_of (Some (VInt 5)) None None None None) (VInt 10) = Ok (VInt 10) /\
  rejected P St (ccol "n" "int" None (info "int" (Some (int_str 5)) None None None None)) (POne (VInt 10)).
Proof.
  intros H. split; [reflexivity|]. exists (SText (lit "10")). split; [|reflexivity]. constructor; [|constructor]. exists (BVal (POne (VStr (lit "10")))), (SText (lit "10")). split; [|split]; [|reflexivity|reflexivity].
  unfold cell_value. change (convert P (lit "int") (VInt 10) = Ok (BVal (POne (VStr (lit "10"))))). unfold convert. change (identity_type (lit "int")) with false.
  change (is_type (lit "int") (lit "boolean")) with false. change (is_type (lit "int") (lit "decimal")) with false. cbn iota. rewrite H. reflexivity.
Qed.
(** A decimal is stored as a float, but its bound is compared as an integer of 64 bits: 2^53+1 is valid for a minimum of 2^53+1, and rejected. *)
Example c42_decimal_refuted P St : py_float P (VDec (Fin false 9007199254740993 0)) = Ok (inject_Z 9007199254740992) ->
  validate value_ops CDecimal (facets_of (Some (VDec (Fin false 9007199254740993 0))) None None None None) (VDec (Fin false 9007199254740993 0)) = Ok (VDec (Fin false 9007199254740993 0)) /\
  rejected P St (ccol "n" "decimal" None (info "decimal" (Some (dec_str (Fin false 9007199254740993 0))) None None None None)) (POne (VDec (Fin false 9007199254740993 0))).
Proof.
  intros H. split; [reflexivity|]. exists (SReal (inject_Z 9007199254740992)). split; [|vm_compute; reflexivity]. constructor; [|constructor]. exists (BReal (inject_Z 9007199254740992)), (SReal (inject_Z 9007199254740992)).
  split; [|split; [reflexivity|reflexivity]]. unfold cell_value.
  change (convert P (lit "decimal") (VDec (Fin false 9007199254740993 0)) = Ok (BReal (inject_Z 9007199254740992))). unfold convert. change (identity_type (lit "decimal")) with false.
  change (is_type (lit "decimal") (lit "boolean")) with false. change (is_type (lit "decimal") (lit "decimal")) with true. cbn iota. rewrite H. reflexivity.
Qed.
(** The lengths of the items of a list are those of the datatype, but the length of the joined text is checked. *)
Example c42_list_refuted P St :
  validate value_ops CString (facets_of None None (Some 1%Z) None None) (VStr (lit "a")) = Ok (VStr (lit "a")) /\
  rejected P St (ccol "l" "string" (Some (lit ";")) (info "string" None None (Some 1%Z) None None)) (PList [Some (VStr (lit "a")); Some (VStr (lit "a"))]).
Proof.
  split; [reflexivity|]. exists (SText (lit "a;a")). split; [|reflexivity]. constructor; [|constructor]. eexists _, _. split; [reflexivity|]. split; reflexivity.
Qed.
(** length() of SQLite stops at a null character. *)
Example c42_null_refuted P St :
  validate value_ops CString (facets_of None None (Some 3%Z) None None) (VStr [97; 0; 98]) = Ok (VStr [97; 0; 98]) /\
  rejected P St (ccol "l" "string" None (info "string" None None (Some 3%Z) None None)) (POne (VStr [97; 0; 98])).
Proof.
  split; [reflexivity|]. exists (SText [97; 0; 98]). split; [|reflexivity]. constructor; [|constructor]. eexists _, _. split; [reflexivity|]. split; reflexivity.
Qed.
(** base64Binary is stored as text, whose length is not the number of bytes. *)
Example c42_base64_refuted P St : to_string P (lit "base64Binary") (VBytes [97]) = Ok (lit "YQ==") ->
  validate value_ops CBase64 (facets_of None None (Some 1%Z) None None) (VBytes [97]) = Ok (VBytes [97]) /\
  rejected P St (ccol "n" "base64Binary" None (info "base64Binary" None None (Some 1%Z) None None)) (POne (VBytes [97])).
Proof.
  intros H. split; [reflexivity|]. exists (SText (lit "YQ==")). split; [|reflexivity]. constructor; [|constructor]. exists (BVal (POne (VStr (lit "YQ==")))), (SText (lit "YQ==")). split; [|split]; [|reflexivity|reflexivity].
  unfold cell_value. change (convert P (lit "base64Binary") (VBytes [97]) = Ok (BVal (POne (VStr (lit "YQ=="))))). unfold convert. change (identity_type (lit "base64Binary")) with false.
  change (is_type (lit "base64Binary") (lit "boolean")) with false. change (is_type (lit "base64Binary") (lit "decimal")) with false. cbn iota. rewrite H. reflexivity.
Qed.
