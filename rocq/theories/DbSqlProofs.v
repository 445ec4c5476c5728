(** The generated SQL is parsed as the statement meant (C41). *)
From Verif Require Import PyStr Dec DecProofs Group Sql SqlProofs DbSqlSpec Db DbSql.

(** *** statements as tokens *)
Fixpoint operand_toks (o : operand) : list tok :=
  match o with
  | OCol c => [TId c]
  | OStr s => [TStr s]
  | ONum neg s => (if neg then [TPunct 45] else []) ++ [TNum s]
  | OFun f o => TWord f :: TPunct 40 :: operand_toks o ++ [TPunct 41]
  end.
Definition cmp_tok (c : cmp) : tok := match c with Ge => TOp 62 | Le => TOp 60 | EqS => TPunct 61 end.
Definition atom_toks (a : atom) : list tok := operand_toks (at_l a) ++ cmp_tok (at_op a) :: operand_toks (at_r a).
Definition type_word (t : sqltype) : tok := TWord (type_sql t).
Definition suffix_toks (l : list atom) : list tok :=
  match l with [] => [] | l => TWord (lit "CHECK") :: TPunct 40 :: joint [TWord (lit "AND")] (map atom_toks l) ++ [TPunct 41] end.
Definition coldef_toks (c : coldef) : list tok :=
  TId (cd_name c) :: type_word (cd_type c) :: (if cd_notnull c then [TWord (lit "NOT"); TWord (lit "NULL")] else []) ++
  suffix_toks (cd_check c).
Definition names_toks (l : list pystr) : list tok := TPunct 40 :: ids l ++ [TPunct 41].
Definition pk_toks (pk : list pystr) : list (list tok) :=
  match pk with [] => [] | _ => [TWord (lit "PRIMARY") :: TWord (lit "KEY") :: names_toks pk] end.
Definition fk_toks (f : fkdef) : list tok :=
  TWord (lit "FOREIGN") :: TWord (lit "KEY") :: names_toks (fst (fst f)) ++ TWord (lit "REFERENCES") :: TId (snd (fst f)) ::
  names_toks (snd f) ++ [TWord (lit "ON"); TWord (lit "DELETE"); TWord (lit "CASCADE")].
Definition create_toks (name : pystr) (cols : list coldef) (pk : list pystr) (fks : list fkdef) : list tok :=
  [TWord (lit "CREATE"); TWord (lit "TABLE"); TWord (lit "IF"); TWord (lit "NOT"); TWord (lit "EXISTS"); TId name; TPunct 40] ++
  joint [comma] (map coldef_toks cols ++
                 pk_toks pk ++
                 map fk_toks fks) ++ [TPunct 41].

(** *** lexing *)
Definition good (st : lstate) : bool := breaks st 44 && breaks st 41 && breaks st 32 && breaks st 10.
Definition LG (s : pystr) (ts : list tok) : Prop := exists st, L s ts st /\ good st = true.
Definition sep1 (b : pystr) : bool := match b with c :: _ => char_mem c [44; 41; 32; 10] | [] => false end.
Lemma good_brk st b : good st = true -> sep1 b = true -> brk st b = true.
Proof.
  unfold good, sep1, brk. destruct b as [|c b]; intros G H; [discriminate H|]. repeat rewrite andb_true_iff in G. destruct G as [[[G1 G2] G3] G4].
  apply char_mem_In in H. destruct H as [<-|[<-|[<-|[<-|[]]]]]; assumption.
Qed.
Lemma LG_app a ta b tb : LG a ta -> LG b tb -> sep1 b = true -> LG (a ++ b) (ta ++ tb).
Proof. intros (sa & A & GA) (sb & B & GB) H. exists sb. split; [|exact GB]. eapply L_app; [exact A|exact B|apply good_brk; assumption]. Qed.
Lemma LG_L a ta b tb sb : LG a ta -> L b tb sb -> sep1 b = true -> L (a ++ b) (ta ++ tb) sb.
Proof. intros (sa & A & GA) B H. eapply L_app; [exact A|exact B|apply good_brk; assumption]. Qed.
Lemma LS_app a ta b tb : L a ta LStart -> LG b tb -> LG (a ++ b) (ta ++ tb).
Proof.
  intros A (sb & B & GB). exists sb. split; [|exact GB]. eapply L_app; [exact A|exact B|]. destruct b; reflexivity.
Qed.
Lemma LSS_app a ta b tb sb : L a ta LStart -> L b tb sb -> L (a ++ b) (ta ++ tb) sb.
Proof. intros A B. eapply L_app; [exact A|exact B|]. destruct b; reflexivity. Qed.
Lemma LG_bt n : ~ In BT n -> LG (bt n) [TId n].
Proof. intros H. eexists. split; [apply L_bt, H|reflexivity]. Qed.
Lemma LG_num s : is_number s = true -> LG s [TNum s].
Proof. intros H. eexists. split; [apply L_num, H|reflexivity]. Qed.
Lemma LG_str n : ~ In QT n -> LG (QT :: n ++ [QT]) [TStr n].
Proof. intros H. eexists. split; [apply L_str, H|reflexivity]. Qed.
Lemma LG_signed s : is_signed s = true -> LG s (operand_toks (num_operand s)).
Proof.
  intros H. destruct s as [|c s]; [discriminate H|]. destruct (N.eq_dec c 45) as [->|Nc].
  - change (num_operand (45 :: s)) with (ONum true s). change (LG ([45] ++ s) ([TPunct 45] ++ [TNum s])). change (is_number s = true) in H.
    destruct (LG_num s H) as (sb & B & G). exists sb. split; [|exact G]. eapply L_app; [split; reflexivity|exact B|].
    destruct s as [|d s]; [discriminate H|]. cbn [brk breaks]. cbn [is_number] in H. apply andb_true_iff in H. destruct H as [H _].
    apply negb_true_iff, N.eqb_neq. intros ->. discriminate H.
  - assert (E : num_operand (c :: s) = ONum false (c :: s)).
    { unfold num_operand. destruct c as [|p]; [reflexivity|]. repeat (destruct p as [p|p|]; try reflexivity). contradiction. }
    assert (E2 : is_signed (c :: s) = is_number (c :: s)).
    { unfold is_signed. destruct c as [|p]; [reflexivity|]. repeat (destruct p as [p|p|]; try reflexivity). contradiction. }
    rewrite E. rewrite E2 in H. apply LG_num, H.
Qed.
Lemma int_signed z : is_signed (int_str z) = true.
Proof.
  assert (D : forall n, is_signed (digits_of n) = true).
  { intros n. pose proof (digits_number _ (digits_of_nonempty n) (digits_of_all n)) as H. destruct (digits_of n) as [|c s]; [discriminate H|].
    unfold is_signed. destruct (N.eq_dec c 45) as [->|Nc]; [discriminate H|].
    destruct c as [|p]; [discriminate H|]. repeat (destruct p as [p|p|]; try exact H). contradiction. }
  destruct z as [|p|p]; [apply D|apply D|]. change (is_number (digits_of (Npos p)) = true).
  apply digits_number; [apply digits_of_nonempty|apply digits_of_all].
Qed.
Ltac lconst := eexists; split; [split; vm_compute; reflexivity|reflexivity].

Lemma LG_join sep tsep ss tss : L sep tsep LStart -> sep1 sep = true -> ss <> [] -> Forall2 LG ss tss ->
  LG (join sep ss) (joint tsep tss).
Proof.
  intros Ls S1 N F. induction F as [|s ts ss tss H F IH]; [contradiction|]. destruct F as [|s2 ts2 ss tss H2 F].
  - exact H.
  - change (LG (s ++ sep ++ join sep (s2 :: ss)) (ts ++ tsep ++ joint tsep (ts2 :: tss))).
    apply LG_app; [exact H|apply LS_app; [exact Ls|apply IH; discriminate]|]. destruct sep; [discriminate S1|exact S1].
Qed.
Lemma LG_quoted names : names <> [] -> Forall (fun n => ~ In BT n) names -> LG (quoted names) (ids names).
Proof.
  intros N F. apply LG_join; [split; reflexivity|reflexivity|destruct names; [contradiction|discriminate]|].
  induction F as [|n l H F IH]; constructor; [apply LG_bt, H|]. destruct l; [constructor|apply IH; discriminate].
Qed.

Lemma date_func_cases t : date_func t = None \/ date_func t = Some (lit "date") \/ date_func t = Some (lit "datetime").
Proof. unfold date_func. destruct (str_eqb t _); auto. destruct (str_eqb t _); auto. Qed.

Lemma L_compare cname op ops t b : ~ In BT cname -> clean_literal (date_func t) b ->
  L (lit " " ++ ops ++ lit " ") [cmp_tok op] LStart ->
  LG (compare_sql cname ops (date_func t) b) (atom_toks (compare_atom cname op (date_func t) b)).
Proof.
  intros Hc Hb Lo. unfold atom_toks.
  assert (F : forall f, L (f ++ lit "(") [TWord (map up1 f); TPunct 40] LStart -> ~ In QT b ->
    LG (f ++ lit "(" ++ bt cname ++ lit ") " ++ ops ++ lit " " ++ f ++ lit "('" ++ b ++ lit "')")
       (operand_toks (OFun (map up1 f) (OCol cname)) ++ cmp_tok op :: operand_toks (OFun (map up1 f) (OStr b)))).
  { intros f Lf Hq. cbn [operand_toks].
    replace (f ++ lit "(" ++ bt cname ++ lit ") " ++ ops ++ lit " " ++ f ++ lit "('" ++ b ++ lit "')")
      with ((f ++ lit "(") ++ bt cname ++ (lit ")" ++ (lit " " ++ ops ++ lit " ")) ++ (f ++ lit "(") ++ ([QT] ++ b ++ [QT]) ++ lit ")")
      by (rewrite <- !app_assoc; reflexivity).
    change (LG ((f ++ lit "(") ++ bt cname ++ (lit ")" ++ (lit " " ++ ops ++ lit " ")) ++ (f ++ lit "(") ++ (QT :: b ++ [QT]) ++ lit ")")
      ([TWord (map up1 f); TPunct 40] ++ [TId cname] ++ ([TPunct 41] ++ [cmp_tok op]) ++ [TWord (map up1 f); TPunct 40] ++ [TStr b] ++ [TPunct 41])).
    apply LS_app; [exact Lf|]. apply LG_app; [apply LG_bt, Hc| |reflexivity].
    apply LS_app; [apply LSS_app; [split; reflexivity|exact Lo]|]. apply LS_app; [exact Lf|].
    apply LG_app; [apply LG_str, Hq|lconst|reflexivity]. }
  destruct (date_func_cases t) as [E|[E|E]]; rewrite E in *; cbn [compare_sql compare_atom at_l at_op at_r clean_literal] in *.
  - cbn [operand_toks].
    replace (bt cname ++ lit " " ++ ops ++ lit " " ++ b) with (bt cname ++ (lit " " ++ ops ++ lit " ") ++ b) by (rewrite <- !app_assoc; reflexivity).
    change ([TId cname] ++ cmp_tok op :: operand_toks (num_operand b)) with ([TId cname] ++ [cmp_tok op] ++ operand_toks (num_operand b)).
    apply LG_app; [apply LG_bt, Hc| |reflexivity]. apply LS_app; [exact Lo|apply LG_signed, Hb].
  - apply F; [split; reflexivity|apply Hb].
  - apply F; [split; reflexivity|apply Hb].
Qed.
Lemma L_length cname op ops z : ~ In BT cname -> L (lit " " ++ ops ++ lit " ") [cmp_tok op] LStart ->
  Forall2 LG (length_sql cname ops z) (map atom_toks (length_atom cname op z)).
Proof.
  intros Hc Lo.
  assert (F : forall z, LG (lit "length(" ++ bt cname ++ lit ") " ++ ops ++ lit " " ++ int_str z)
     (atom_toks {| at_l := OFun (lit "LENGTH") (OCol cname); at_op := op; at_r := num_operand (int_str z) |})).
  { intros y. unfold atom_toks. cbn [at_l at_op at_r operand_toks].
    replace (lit "length(" ++ bt cname ++ lit ") " ++ ops ++ lit " " ++ int_str y)
      with (lit "length(" ++ bt cname ++ (lit ")" ++ (lit " " ++ ops ++ lit " ")) ++ int_str y) by (rewrite <- !app_assoc; reflexivity).
    change (LG (lit "length(" ++ bt cname ++ (lit ")" ++ (lit " " ++ ops ++ lit " ")) ++ int_str y)
      ([TWord (lit "LENGTH"); TPunct 40] ++ [TId cname] ++ ([TPunct 41] ++ [cmp_tok op]) ++ operand_toks (num_operand (int_str y)))).
    apply LS_app; [split; reflexivity|]. apply LG_app; [apply LG_bt, Hc| |reflexivity].
    apply LS_app; [apply LSS_app; [split; reflexivity|exact Lo]|]. apply LG_signed, int_signed. }
  destruct z as [[|p|p]|]; cbn [length_sql length_atom map]; constructor; auto.
Qed.
Lemma F2_app {A B} (R : A -> B -> Prop) a b c d : Forall2 R a c -> Forall2 R b d -> Forall2 R (a ++ b) (c ++ d).
Proof. apply Forall2_app. Qed.
Lemma constraints_toks cname t d : ~ In BT cname ->
  (forall s, di_min d = Some s -> clean_literal (date_func t) s) -> (forall s, di_max d = Some s -> clean_literal (date_func t) s) ->
  Forall2 LG (constraints cname t d) (map atom_toks (atoms cname t d)).
Proof.
  intros Hc H1 H2. unfold constraints, atoms.
  destruct (di_min d) as [mn|]; [|destruct (di_max d) as [mx|]]; cbn [opt_list app map].
  - constructor; [apply L_compare; auto; split; reflexivity|]. destruct (di_max d) as [mx|]; cbn [opt_list map]; constructor; [apply L_compare; auto; split; reflexivity|constructor].
  - constructor; [apply L_compare; auto; split; reflexivity|constructor].
  - rewrite !map_app. apply F2_app; [apply L_length; [exact Hc|split; reflexivity]|].
    apply F2_app; apply L_length; auto; split; reflexivity.
Qed.

Lemma app_ne {A} (a b : list A) x : a = x :: b -> a <> [].
Proof. intros -> ; discriminate. Qed.
Lemma suffix_ok cn c : ~ In BT cn -> bounds_clean c ->
  LG (suffix (check_sql cn c)) (suffix_toks (match cs_csvw c with None => [] | Some d => atoms cn (cs_type c) d end)) /\
  (suffix (check_sql cn c) = [] \/ sep1 (suffix (check_sql cn c)) = true).
Proof.
  intros Hc Hb. unfold check_sql, bounds_clean in *. destruct (cs_csvw c) as [d|]; [|split; [lconst|left; reflexivity]]. destruct Hb as [H1 H2].
  pose proof (constraints_toks cn (cs_type c) d Hc H1 H2) as F.
  destruct (constraints cn (cs_type c) d) as [|x l]; destruct (atoms cn (cs_type c) d) as [|y m]; cbn [map] in F; try (inversion F; fail).
  - cbn [join]. split; [lconst|left; reflexivity].
  - pose proof (LG_join (lit " AND ") [TWord (lit "AND")] (x :: l) (atom_toks y :: map atom_toks m) (conj eq_refl eq_refl) eq_refl ltac:(discriminate) F) as J.
    destruct (join (lit " AND ") (x :: l)) as [|k r] eqn:Ej.
    + exfalso. inversion F as [|? ? ? ? Hx]; subst. destruct Hx as (st & [Hx _] & _).
      destruct x as [|x0 x']; [|destruct l; discriminate Ej]. unfold lex in Hx. cbn in Hx.
      unfold atom_toks in Hx. destruct (operand_toks (at_l y)); discriminate Hx.
    + split; [|right; reflexivity].
      change (LG (lit " CHECK (" ++ (k :: r) ++ lit ")") ([TWord (lit "CHECK"); TPunct 40] ++ joint [TWord (lit "AND")] (atom_toks y :: map atom_toks m) ++ [TPunct 41])).
      apply LS_app; [split; reflexivity|]. apply LG_app; [exact J|lconst|reflexivity].
Qed.
Lemma col_toks tr table c : ~ In BT (tr table (Some (cs_name c))) -> bounds_clean c ->
  LG (col_sql tr table c) (coldef_toks (coldef_of tr table c)).
Proof.
  intros Hc Hb. pose proof (suffix_ok _ c Hc Hb) as [Ck Cs].
  unfold col_sql, coldef_toks, coldef_of. cbn [cd_name cd_type cd_notnull cd_check]. cbv zeta.
  set (cn := tr table (Some (cs_name c))) in *.
  set (al := match cs_csvw c with None => [] | Some d => atoms cn (cs_type c) d end) in *.
  assert (Cnil : suffix (check_sql cn c) = [] -> suffix_toks al = []).
  { intros E. destruct Ck as (st & [Ck _] & _). rewrite E in Ck. unfold lex in Ck. cbn in Ck. congruence. }
  change (LG (bt cn ++ lit " " ++ type_sql (cs_db_type c) ++ (if cs_required c then lit " NOT NULL" else []) ++ suffix (check_sql cn c))
    ([TId cn] ++ [] ++ [type_word (cs_db_type c)] ++ (if cs_required c then [TWord (lit "NOT"); TWord (lit "NULL")] else []) ++ suffix_toks al)).
  generalize dependent (suffix (check_sql cn c)). intros ct Ck Cs Cnil. generalize dependent (suffix_toks al). intros ctoks Ck Cnil.
  apply LG_app; [apply LG_bt, Hc| |reflexivity]. apply LS_app; [split; reflexivity|].
  assert (Ty : forall b tb, LG b tb -> b = [] \/ sep1 b = true -> (b = [] -> tb = []) -> LG (type_sql (cs_db_type c) ++ b) ([type_word (cs_db_type c)] ++ tb)).
  { intros b tb Hb2 [->|S] E.
    - rewrite (E eq_refl), !app_nil_r. destruct (cs_db_type c); lconst.
    - apply LG_app; [destruct (cs_db_type c); lconst|exact Hb2|exact S]. }
  apply Ty.
  - destruct (cs_required c); [|exact Ck]. destruct Cs as [E|S].
    + rewrite E, (Cnil E), !app_nil_r. lconst.
    + apply LG_app; [lconst|exact Ck|exact S].
  - destruct (cs_required c); [right; reflexivity|exact Cs].
  - destruct (cs_required c); [discriminate|exact Cnil].
Qed.
Lemma fk_toks_ok tr table (fk : fkspec) :
  fst (fst fk) <> [] -> snd fk <> [] -> (forall c, In c (fst (fst fk)) -> ~ In BT (tr table (Some c))) ->
  ~ In BT (tr (snd (fst fk)) None) -> (forall c, In c (snd fk) -> ~ In BT (tr (snd (fst fk)) (Some c))) ->
  LG (fk_sql tr table fk)
     (fk_toks (map (fun c => tr table (Some c)) (fst (fst fk)), tr (snd (fst fk)) None, map (fun c => tr (snd (fst fk)) (Some c)) (snd fk))).
Proof.
  destruct fk as [[cols ref] refcols]. cbn [fst snd]. intros N1 N2 H1 H2 H3. unfold fk_sql, fk_toks, names_toks. cbn [fst snd].
  set (c1 := map _ cols). set (c2 := map _ refcols).
  assert (Q : forall (tr' : pystr -> pystr) l, l <> [] -> (forall c, In c l -> ~ In BT (tr' c)) -> LG (quoted (map tr' l)) (ids (map tr' l))).
  { intros tr' l Nl Hl. apply LG_quoted; [destruct l; [contradiction|discriminate]|]. apply Forall_forall. intros x Hx. apply in_map_iff in Hx. destruct Hx as (y & <- & Hy). apply Hl, Hy. }
  pose proof (Q _ cols N1 H1) as Q1. pose proof (Q _ refcols N2 H3) as Q2.
  match goal with |- LG ?t ?k => replace k with ([TWord (lit "FOREIGN"); TWord (lit "KEY"); TPunct 40] ++ ids c1 ++ [TPunct 41; TWord (lit "REFERENCES")] ++ ids [tr ref None] ++ [TPunct 40] ++ ids c2 ++ [TPunct 41; TWord (lit "ON"); TWord (lit "DELETE"); TWord (lit "CASCADE")]) end.
  - apply LS_app; [split; reflexivity|]. apply LG_app; [exact Q1| |reflexivity]. apply LS_app; [split; reflexivity|].
    destruct (LG_quoted [tr ref None] ltac:(discriminate) ltac:(constructor; [exact H2|constructor])) as (st & Lr & Gr).
    assert (St : st = LTick (tr ref None)) by (destruct Lr as [_ <-]; apply (proj2 (L_bt _ H2))).
    assert (G2 : LG (lit "(" ++ quoted c2 ++ lit ") ON DELETE CASCADE") ([TPunct 40] ++ ids c2 ++ [TPunct 41; TWord (lit "ON"); TWord (lit "DELETE"); TWord (lit "CASCADE")])).
    { apply LS_app; [split; reflexivity|]. apply LG_app; [exact Q2|lconst|reflexivity]. }
    destruct G2 as (s2 & L2 & G2). exists s2. split; [|exact G2]. eapply L_app; [exact Lr|exact L2|]. rewrite St. reflexivity.
  - cbn [ids map joint app]. rewrite <- !app_assoc. reflexivity.
Qed.

(** no null character *)
Definition nn (s : pystr) : Prop := Forall (fun c => c <> 0) s.
Lemma nn_mem s : nn s -> char_mem 0 s = false.
Proof. intros H. apply char_mem_false. intros I. apply (proj1 (Forall_forall _ _) H 0 I). reflexivity. Qed.
Lemma nn_not s : ~ In 0 s -> nn s.
Proof. intros H. apply Forall_forall. intros c Hc ->. apply H, Hc. Qed.
Lemma nn_app a b : nn a -> nn b -> nn (a ++ b).
Proof. intros A B. apply Forall_app. auto. Qed.
Lemma nn_join sep l : nn sep -> Forall nn l -> nn (join sep l).
Proof.
  intros S F. induction F as [|x l H F IH]; [constructor|]. destruct l as [|y l]; [exact H|].
  change (nn (x ++ sep ++ join sep (y :: l))). apply nn_app; [exact H|]. apply nn_app; [exact S|exact IH].
Qed.
Ltac nn_const := apply nn_not; vm_compute; intuition discriminate.
Lemma nn_bt n : ~ In 0 n -> nn (bt n).
Proof. intros H. unfold bt. constructor; [discriminate|]. apply nn_app; [apply nn_not, H|nn_const]. Qed.
Lemma nn_quoted l : (forall n, In n l -> ~ In 0 n) -> nn (quoted l).
Proof.
  intros H. apply nn_join; [nn_const|]. apply Forall_forall. intros x Hx. apply in_map_iff in Hx. destruct Hx as (n & <- & Hn). apply nn_bt, H, Hn.
Qed.
Lemma nn_num_tail s : forall acc, num_tail acc s = true -> nn s.
Proof.
  induction s as [|c s IH]; intros acc H; constructor; cbn [num_tail] in H; apply andb_true_iff in H; destruct H as [H1 H2]; [|apply (IH _ H2)].
  intros ->. revert H1. unfold num_char. destruct (rev acc) as [|e l]; [discriminate|]. destruct ((e =? 69) || (e =? 101)); discriminate.
Qed.
Lemma nn_number s : is_number s = true -> nn s.
Proof.
  destruct s as [|c s]; intros H; [discriminate H|]. cbn [is_number] in H. apply andb_true_iff in H. destruct H as [H1 H2].
  constructor; [intros ->; discriminate H1|apply (nn_num_tail _ _ H2)].
Qed.
Lemma nn_signed s : is_signed s = true -> nn s.
Proof.
  intros H. unfold is_signed in H. destruct s as [|c s]; [discriminate H|].
  destruct (N.eq_dec c 45) as [->|Nc]; [constructor; [discriminate|apply nn_number, H]|].
  apply nn_number. destruct c as [|p]; [exact H|]. repeat (destruct p as [p|p|]; try exact H). contradiction.
Qed.
Lemma nn_compare cn op t b : ~ In 0 cn -> nn op -> clean_literal (date_func t) b -> nn (compare_sql cn op (date_func t) b).
Proof.
  intros Hc Ho Hb. destruct (date_func_cases t) as [E|[E|E]]; rewrite E in *; cbn [compare_sql clean_literal] in *;
    repeat first [apply nn_bt; assumption|assumption|apply nn_signed; assumption|apply nn_not; apply Hb|nn_const|apply nn_app].
Qed.
Lemma nn_length cn op z : ~ In 0 cn -> nn op -> Forall nn (length_sql cn op z).
Proof.
  intros Hc Ho. destruct z as [[|p|p]|]; cbn [length_sql]; [constructor| | |constructor]; (constructor; [|constructor]);
    repeat first [apply nn_bt; assumption|assumption|apply nn_signed, int_signed|nn_const|apply nn_app].
Qed.
Lemma nn_col tr t c : clean (tr t (Some (cs_name c))) -> bounds_clean c -> nn (col_sql tr t c).
Proof.
  intros [_ Hc] Hb. unfold col_sql. cbv zeta. set (cn := tr t (Some (cs_name c))) in *.
  apply nn_app; [apply nn_bt, Hc|]. apply nn_app; [nn_const|]. apply nn_app; [destruct (cs_db_type c); nn_const|].
  apply nn_app; [destruct (cs_required c); nn_const|].
  assert (K : nn (check_sql cn c)).
  { unfold check_sql, bounds_clean in *. destruct (cs_csvw c) as [d|]; [|constructor]. destruct Hb as [H1 H2]. apply nn_join; [nn_const|].
    unfold constraints. destruct (di_min d) as [mn|]; destruct (di_max d) as [mx|]; cbn [opt_list app];
      repeat (constructor; [apply nn_compare; auto; nn_const|]); try constructor.
    apply Forall_app; split; [|apply Forall_app; split]; apply nn_length; auto; nn_const. }
  unfold suffix. destruct (check_sql cn c) as [|k r]; [constructor|]. apply nn_app; [nn_const|]. apply nn_app; [exact K|nn_const].
Qed.
Lemma table_no_null tr s : sql_clean tr s -> char_mem 0 (table_sql tr s) = false.
Proof.
  intros H. apply nn_mem. unfold table_sql.
  apply nn_app; [nn_const|]. apply nn_app; [apply nn_not, (sc_table _ _ H)|].
  apply nn_app; [nn_const|]. apply nn_app; [nn_const|]. apply nn_app; [nn_const|].
  apply nn_app; [|apply nn_app; nn_const]. apply nn_join; [nn_const|]. unfold clauses.
  assert (Q : forall (f : pystr -> pystr) l, (forall c, In c l -> clean (f c)) -> nn (quoted (map f l))).
  { intros f l Hl. apply nn_quoted. intros n Hn. apply in_map_iff in Hn. destruct Hn as (c & <- & Hc). apply (Hl c Hc). }
  apply Forall_app; split; [|apply Forall_app; split].
  - apply Forall_forall. intros x Hx. apply in_map_iff in Hx. destruct Hx as (c & <- & Hc). destruct (sc_cols _ _ H c Hc). apply nn_col; assumption.
  - pose proof (sc_pk _ _ H) as Hp. destruct (ts_pk s) as [|p pk]; [constructor|]. constructor; [|constructor].
    apply nn_app; [nn_const|]. apply nn_app; [apply Q, Hp|nn_const].
  - apply Forall_forall. intros x Hx. apply in_map_iff in Hx. destruct Hx as ([[cols ref] rc] & <- & Hf). destruct (sc_fks _ _ H _ Hf) as (_ & _ & A & B & C). cbn [fst snd] in *.
    unfold fk_sql. apply nn_app; [nn_const|]. apply nn_app; [apply Q, A|]. apply nn_app; [nn_const|]. apply nn_app; [apply nn_quoted; intros n [<-|[]]; apply B|].
    apply nn_app; [nn_const|]. apply nn_app; [apply Q, C|nn_const].
Qed.
Lemma clauses_toks tr s : sql_clean tr s -> 
  Forall2 LG (clauses tr s) (map coldef_toks (map (coldef_of tr (ts_name s)) (ts_cols s)) ++
     pk_toks (map (fun c => tr (ts_name s) (Some c)) (ts_pk s)) ++
     map fk_toks (map (fun fk => (map (fun c => tr (ts_name s) (Some c)) (fst (fst fk)), tr (snd (fst fk)) None,
                     map (fun c => tr (snd (fst fk)) (Some c)) (snd fk))) (ts_fks s))).
Proof.
  intros H. unfold clauses. apply F2_app; [|apply F2_app].
  - pose proof (sc_cols _ _ H) as Hc. revert Hc. generalize (ts_cols s). induction l as [|c l IH]; intros Hc; cbn [map]; constructor.
    + apply col_toks; apply (Hc c (or_introl eq_refl)).
    + apply IH. intros x Hx. apply Hc. right. exact Hx.
  - pose proof (sc_pk _ _ H) as Hp. destruct (ts_pk s) as [|p pk]; [constructor|]. cbn [map pk_toks]. constructor; [|constructor].
    change (LG (lit "PRIMARY KEY(" ++ quoted (map (fun c => tr (ts_name s) (Some c)) (p :: pk)) ++ lit ")")
       ([TWord (lit "PRIMARY"); TWord (lit "KEY"); TPunct 40] ++ ids (map (fun c => tr (ts_name s) (Some c)) (p :: pk)) ++ [TPunct 41])).
    apply LS_app; [split; reflexivity|]. apply LG_app; [|lconst|reflexivity]. apply LG_quoted; [discriminate|].
    apply Forall_forall. intros x Hx. apply in_map_iff in Hx. destruct Hx as (y & <- & Hy). apply (Hp y Hy).
  - pose proof (sc_fks _ _ H) as Hf. revert Hf. generalize (ts_fks s). induction l as [|fk l IH]; intros Hf; cbn [map]; constructor.
    + destruct (Hf fk (or_introl eq_refl)) as (A & B & C & D & E). apply fk_toks_ok; auto; try (intros c Hc; apply (C c Hc)); try (intros c Hc; apply (E c Hc)). apply D.
    + apply IH. intros x Hx. apply Hf. right. exact Hx.
Qed.
Theorem table_sql_toks tr s : sql_clean tr s ->
  match create_of tr s with
  | SCreate n cols pk fks => tokens (table_sql tr s) = Some (create_toks n cols pk fks)
  | _ => False
  end.
Proof.
  intros H. unfold create_of. unfold tokens. rewrite (table_no_null tr s H). f_equal.
  pose proof (clauses_toks tr s H) as F.
  assert (J : LG (join (lit "," ++ [LF] ++ lit "    ") (clauses tr s)) (joint [comma] (map coldef_toks (map (coldef_of tr (ts_name s)) (ts_cols s)) ++
     pk_toks (map (fun c => tr (ts_name s) (Some c)) (ts_pk s)) ++
     map fk_toks (map (fun fk => (map (fun c => tr (ts_name s) (Some c)) (fst (fst fk)), tr (snd (fst fk)) None,
                     map (fun c => tr (snd (fst fk)) (Some c)) (snd fk))) (ts_fks s))))).
  { apply LG_join; [split; reflexivity|reflexivity| |exact F]. unfold clauses. pose proof (sc_some _ _ H). destruct (ts_cols s); [contradiction|discriminate]. }
  unfold table_sql, create_toks.
  replace (lit "CREATE TABLE IF NOT EXISTS `" ++ tr (ts_name s) None ++ lit "` (" ++ [LF] ++ lit "    " ++ join (lit "," ++ [LF] ++ lit "    ") (clauses tr s) ++ [LF] ++ lit ")")
    with (lit "CREATE TABLE IF NOT EXISTS " ++ bt (tr (ts_name s) None) ++ (lit " (" ++ [LF] ++ lit "    ") ++ join (lit "," ++ [LF] ++ lit "    ") (clauses tr s) ++ ([LF] ++ lit ")")).
  2: { unfold bt. change (lit "CREATE TABLE IF NOT EXISTS `") with (lit "CREATE TABLE IF NOT EXISTS " ++ [BT]). change (lit "` (") with ([BT] ++ lit " (").
       change (BT :: tr (ts_name s) None ++ [BT]) with ([BT] ++ tr (ts_name s) None ++ [BT]). rewrite <- !app_assoc. reflexivity. }
  match goal with |- lex ?t = ?k => assert (X : LG t k) end.
  { match goal with |- LG _ (?a ++ ?b ++ ?c) => change (LG (lit "CREATE TABLE IF NOT EXISTS " ++ bt (tr (ts_name s) None) ++ (lit " (" ++ [LF] ++ lit "    ") ++ join (lit "," ++ [LF] ++ lit "    ") (clauses tr s) ++ ([LF] ++ lit ")"))
      ([TWord (lit "CREATE"); TWord (lit "TABLE"); TWord (lit "IF"); TWord (lit "NOT"); TWord (lit "EXISTS")] ++ [TId (tr (ts_name s) None)] ++ [TPunct 40] ++ b ++ c)) end.
    apply LS_app; [split; reflexivity|]. apply LG_app; [apply LG_bt, (sc_table _ _ H)| |reflexivity].
    apply LS_app; [split; reflexivity|]. apply LG_app; [exact J|lconst|reflexivity]. }
  destruct X as (st & [X _] & _). exact X.
Qed.
