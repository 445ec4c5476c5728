(** The parser reads back the tokens of the generated statements (C41). *)
From Verif Require Import PyStr Dec DecProofs Group Sql SqlProofs DbSqlSpec Db DbSql DbSqlProofs.

Definition flat (o : operand) : bool := match o with OFun _ (OFun _ _) => false | _ => true end.
Definition atom_flat (a : atom) : Prop := flat (at_l a) = true /\ flat (at_r a) = true.
Definition def_flat (c : coldef) : Prop := Forall atom_flat (cd_check c).

Lemma p_operand0_ok o r : (forall f x, o <> OFun f x) -> p_operand0 (operand_toks o ++ r) = Some (o, r).
Proof. destruct o as [c|s|[|] s|f x]; intros H; try reflexivity. exfalso. apply (H f x eq_refl). Qed.
Lemma p_operand_ok o r : flat o = true -> p_operand (operand_toks o ++ r) = Some (o, r).
Proof.
  intros H. destruct o as [c|s|[|] s|f x]; try reflexivity.
  cbn [operand_toks app]. rewrite <- app_assoc. unfold p_operand.
  rewrite p_operand0_ok; [reflexivity|]. intros g y ->. discriminate H.
Qed.
Lemma p_cmp_ok c r : p_cmp (cmp_tok c :: r) = Some (c, r).
Proof. destruct c; reflexivity. Qed.
Lemma p_atom_ok a r : atom_flat a -> p_atom (atom_toks a ++ r) = Some (a, r).
Proof.
  intros [H1 H2]. unfold p_atom, atom_toks. rewrite <- app_assoc. cbn [app]. rewrite (p_operand_ok _ _ H1). cbn [obind fst snd].
  rewrite p_cmp_ok. cbn [obind fst snd]. rewrite (p_operand_ok _ _ H2). cbn [obind fst snd]. destruct a; reflexivity.
Qed.
Lemma joint_cons sep x y l : joint sep (x :: y :: l) = x ++ sep ++ joint sep (y :: l).
Proof. reflexivity. Qed.
Definition punct_first (r : list tok) : Prop := exists c r', r = TPunct c :: r'.
Lemma p_conj_ok l : forall fuel r, l <> [] -> (length l <= fuel)%nat -> Forall atom_flat l -> punct_first r ->
  p_conj fuel (joint [TWord (lit "AND")] (map atom_toks l) ++ r) = Some (l, r).
Proof.
  induction l as [|a l IH]; intros fuel r N Hf F P; [contradiction|]. destruct fuel as [|k]; [inversion Hf|].
  inversion F as [|? ? Ha F']; subst. destruct l as [|b l].
  - cbn [map joint p_conj]. rewrite p_atom_ok by exact Ha. cbn [obind fst snd]. destruct P as (c & r' & ->). reflexivity.
  - cbn [map]. rewrite joint_cons, <- !app_assoc. cbn [p_conj]. rewrite p_atom_ok by exact Ha. cbn [obind fst snd].
    change (expect [W (lit "AND")] ([TWord (lit "AND")] ++ joint [TWord (lit "AND")] (atom_toks b :: map atom_toks l) ++ r))
      with (Some (joint [TWord (lit "AND")] (map atom_toks (b :: l)) ++ r)). cbv iota.
    rewrite IH; [reflexivity|discriminate|apply le_S_n, Hf|exact F'|exact P].
Qed.
Lemma atom_toks_len a : (1 <= length (atom_toks a))%nat.
Proof. unfold atom_toks. rewrite app_length. cbn [length]. lia. Qed.
Lemma joint_len sep l : (forall x, In x l -> (1 <= length x)%nat) -> (length l <= length (joint sep l))%nat.
Proof.
  induction l as [|x l IH]; intros H; [reflexivity|]. destruct l as [|y l]; [apply (H x (or_introl eq_refl))|].
  rewrite joint_cons, !app_length. pose proof (H x (or_introl eq_refl)). assert (I := IH (fun z Hz => H z (or_intror Hz))).
  cbn [length] in *. lia.
Qed.
Lemma p_coldef_ok c r : def_flat c -> punct_first r -> p_coldef (coldef_toks c ++ r) = Some (c, r).
Proof.
  intros F P. unfold p_coldef, coldef_toks. cbn [app p_id obind fst snd].
  assert (T : forall z, p_type (type_word (cd_type c) :: z) = Some (cd_type c, z)) by (intros z; destruct (cd_type c); reflexivity).
  rewrite T. cbn [obind fst snd].
  assert (E : (let (notnull, r1) := match expect [W (lit "NOT"); W (lit "NULL")] ((((if cd_notnull c then [TWord (lit "NOT"); TWord (lit "NULL")] else []) ++ suffix_toks (cd_check c))) ++ r) with
               | Some r0 => (true, r0) | None => (false, (((if cd_notnull c then [TWord (lit "NOT"); TWord (lit "NULL")] else []) ++ suffix_toks (cd_check c))) ++ r) end in (notnull, r1)) =
              (cd_notnull c, suffix_toks (cd_check c) ++ r)).
  { destruct (cd_notnull c); [reflexivity|]. cbn [app]. destruct (cd_check c) as [|a l]; [|reflexivity].
    destruct P as (x & r' & ->). reflexivity. }
  match type of E with (let (_, _) := ?m in _) = _ => destruct m as [nn r1] end. injection E as -> ->.
  unfold def_flat in F. destruct c as [n ty nn l]. cbn [cd_name cd_type cd_notnull cd_check] in *. destruct l as [|a l].
  - destruct P as (x & r' & ->). reflexivity.
  - cbn [suffix_toks app].
    rewrite <- app_assoc. set (J := joint [TWord (lit "AND")] (map atom_toks (a :: l)) ++ [TPunct 41] ++ r).
    change (expect [W (lit "CHECK"); Sql.P 40] (TWord (lit "CHECK") :: TPunct 40 :: J)) with (Some J). cbv iota.
    unfold J at 2. rewrite p_conj_ok; [reflexivity|discriminate| |exact F|exists 41; exists r; reflexivity].
    unfold J. rewrite app_length. etransitivity; [|apply Nat.le_add_r].
    transitivity (length (map atom_toks (a :: l))); [rewrite map_length; reflexivity|]. apply joint_len.
    intros x Hx. apply in_map_iff in Hx. destruct Hx as (y & <- & _). apply atom_toks_len.
Qed.
Definition stop (r : list tok) : Prop := exists r', r = TPunct 41 :: r' \/ exists w, r = TPunct 44 :: TWord w :: r'.
Lemma stop_punct r : stop r -> punct_first r.
Proof. intros (r' & [->|(w & ->)]); unfold punct_first; eauto. Qed.
Lemma p_coldefs_ok l : forall fuel r, l <> [] -> (length l <= fuel)%nat -> Forall def_flat l -> stop r ->
  p_coldefs fuel (joint [comma] (map coldef_toks l) ++ r) = Some (l, r).
Proof.
  induction l as [|a l IH]; intros fuel r N Hf F P; [contradiction|]. destruct fuel as [|k]; [inversion Hf|].
  inversion F as [|? ? Ha F']; subst. destruct l as [|b l].
  - cbn [map joint p_coldefs]. rewrite p_coldef_ok by (try exact Ha; apply stop_punct, P). cbn [obind fst snd].
    destruct P as (r' & [->|(w & ->)]); reflexivity.
  - cbn [map]. rewrite joint_cons, <- !app_assoc. cbn [p_coldefs]. rewrite p_coldef_ok; [|exact Ha|unfold punct_first; cbn [app]; unfold comma; eauto].
    cbn [obind fst snd]. specialize (IH k r ltac:(discriminate) (le_S_n _ _ Hf) F' P). cbn [map] in IH.
    assert (S1 : exists z, joint [comma] (coldef_toks b :: map coldef_toks l) ++ r = TId (cd_name b) :: z)
      by (destruct l; cbn [map joint coldef_toks app]; eauto).
    destruct S1 as [z S1]. rewrite S1 in *. cbn [app]. unfold comma. rewrite IH. reflexivity.
Qed.
Definition not_comma (r : list tok) : Prop := match r with TPunct 44 :: _ => False | _ => True end.
Lemma p_ids_ok l : forall r, l <> [] -> p_ids (ids l ++ TPunct 41 :: r) = Some (l, TPunct 41 :: r).
Proof.
  induction l as [|a l IH]; intros r N; [contradiction|]. destruct l as [|b l]; [reflexivity|].
  unfold ids. cbn [map]. rewrite joint_cons, <- !app_assoc. cbn [app p_ids comma].
  specialize (IH r ltac:(discriminate)). unfold ids in IH. cbn [map] in IH. rewrite IH. reflexivity.
Qed.
Lemma p_names_ok l r : l <> [] -> p_names (names_toks l ++ r) = Some (l, r).
Proof.
  intros N. unfold p_names, names_toks. cbn [app]. rewrite <- app_assoc. cbn [app]. 
  change (expect [Sql.P 40] (TPunct 40 :: ids l ++ TPunct 41 :: r)) with (Some (ids l ++ TPunct 41 :: r)). cbn [obind].
  rewrite p_ids_ok by exact N. reflexivity.
Qed.
Lemma p_pk_ok pk r : (exists r', r = TPunct 41 :: r' \/ r = TPunct 44 :: TWord (lit "FOREIGN") :: r') ->
  p_pk (concat (map (cons comma) (pk_toks pk)) ++ r) = Some (pk, r).
Proof.
  intros (r' & H). destruct pk as [|p pk].
  - destruct H as [->| ->]; reflexivity.
  - cbn [pk_toks map concat app]. rewrite app_nil_r. unfold p_pk.
    change (expect [Sql.P 44; W (lit "PRIMARY"); W (lit "KEY")] (comma :: TWord (lit "PRIMARY") :: TWord (lit "KEY") :: names_toks (p :: pk) ++ r))
      with (Some (names_toks (p :: pk) ++ r)). apply p_names_ok. discriminate.
Qed.
Lemma p_fks_ok l : forall fuel r, (length l <= fuel)%nat -> (forall f, In f l -> fst (fst f) <> [] /\ snd f <> []) ->
  p_fks fuel (concat (map (cons comma) (map fk_toks l)) ++ TPunct 41 :: r) = Some (l, TPunct 41 :: r).
Proof.
  induction l as [|f l IH]; intros fuel r Hf N; [destruct fuel; reflexivity|]. destruct fuel as [|k]; [inversion Hf|].
  destruct (N f (or_introl eq_refl)) as [N1 N2]. cbn [map concat].
  set (R := concat (map (cons comma) (map fk_toks l)) ++ TPunct 41 :: r). 
  replace (((comma :: fk_toks f) ++ concat (map (cons comma) (map fk_toks l))) ++ TPunct 41 :: r)
    with (comma :: TWord (lit "FOREIGN") :: TWord (lit "KEY") :: names_toks (fst (fst f)) ++ TWord (lit "REFERENCES") :: TId (snd (fst f)) ::
       names_toks (snd f) ++ TWord (lit "ON") :: TWord (lit "DELETE") :: TWord (lit "CASCADE") :: R).
  2: { unfold fk_toks, R. cbn [app]. rewrite <- !app_assoc. cbn [app]. rewrite <- !app_assoc. reflexivity. }
  cbn [p_fks].
  set (X := names_toks (fst (fst f)) ++ _).
  change (expect [Sql.P 44; W (lit "FOREIGN"); W (lit "KEY")] (comma :: TWord (lit "FOREIGN") :: TWord (lit "KEY") :: X)) with (Some X). cbv iota.
  unfold X. rewrite p_names_ok by exact N1. cbn [obind fst snd].
  match goal with |- obind (expect _ (_ :: ?Y)) _ = _ => change (expect [W (lit "REFERENCES")] (TWord (lit "REFERENCES") :: Y)) with (Some Y) end.
  cbn [obind p_id fst snd]. rewrite p_names_ok by exact N2. cbn [obind fst snd].
  change (expect [W (lit "ON"); W (lit "DELETE"); W (lit "CASCADE")] (TWord (lit "ON") :: TWord (lit "DELETE") :: TWord (lit "CASCADE") :: R)) with (Some R).
  cbn [obind]. unfold R. rewrite IH; [destruct f as [[? ?] ?]; reflexivity|apply le_S_n, Hf|intros g Hg; apply N; right; exact Hg].
Qed.
Lemma joint_app sep xs ys : xs <> [] -> joint sep (xs ++ ys) = joint sep xs ++ concat (map (fun y => sep ++ y) ys).
Proof.
  induction xs as [|x xs IH]; intros N; [contradiction|]. destruct xs as [|x2 xs].
  - cbn [app]. clear N IH. revert x. induction ys as [|y ys IH]; intros x; [cbn; rewrite app_nil_r; reflexivity|].
    rewrite joint_cons, IH. cbn [map concat joint]. rewrite app_assoc. rewrite <- !app_assoc. reflexivity.
  - cbn [app]. rewrite !joint_cons. change (x2 :: xs ++ ys) with ((x2 :: xs) ++ ys). rewrite IH by discriminate. rewrite <- !app_assoc. reflexivity.
Qed.
Lemma p_create_ok n cols pk fks : cols <> [] -> Forall def_flat cols -> (forall f, In f fks -> fst (fst f) <> [] /\ snd f <> []) ->
  p_create (create_toks n cols pk fks) = Some (SCreate n cols pk fks).
Proof.
  intros N F Nf. unfold p_create, create_toks.
  rewrite joint_app by (destruct cols; [contradiction|discriminate]).
  rewrite map_app, concat_app. change (fun y => [comma] ++ y) with (cons comma). rewrite <- !app_assoc.
  set (T1 := concat (map (cons comma) (map fk_toks fks)) ++ [TPunct 41]).
  set (T2 := concat (map (cons comma) (pk_toks pk)) ++ T1).
  set (T3 := joint [comma] (map coldef_toks cols) ++ T2).
  cbn [app expect]. change (W (lit "CREATE") (TWord (lit "CREATE"))) with true. change (W (lit "TABLE") (TWord (lit "TABLE"))) with true.
  change (W (lit "IF") (TWord (lit "IF"))) with true. change (W (lit "NOT") (TWord (lit "NOT"))) with true. change (W (lit "EXISTS") (TWord (lit "EXISTS"))) with true.
  cbn [obind p_id fst snd expect]. change (Sql.P 40 (TPunct 40)) with true. cbn [obind].
  assert (S1 : exists r', T1 = TPunct 41 :: r' \/ T1 = TPunct 44 :: TWord (lit "FOREIGN") :: r') by (unfold T1; destruct fks as [|f fks]; cbn [map concat app fk_toks]; eauto).
  assert (S2 : stop T2).
  { unfold T2, stop. destruct pk as [|p pk]; [destruct S1 as (r' & [E|E]); cbn [pk_toks map concat app]; rewrite E; eauto|].
    cbn [pk_toks map concat app]. unfold comma. eauto. }
  assert (L3 : (length cols <= length T3)%nat).
  { unfold T3. rewrite app_length. etransitivity; [|apply Nat.le_add_r]. transitivity (length (map coldef_toks cols)); [rewrite map_length; reflexivity|].
    apply joint_len. intros x Hx. apply in_map_iff in Hx. destruct Hx as (y & <- & _). unfold coldef_toks. cbn [length]. lia. }
  unfold T3 at 2. rewrite p_coldefs_ok by assumption. cbn [obind fst snd]. unfold T2. rewrite p_pk_ok by exact S1. cbn [obind fst snd].
  assert (L1 : (length fks <= length T1)%nat).
  { unfold T1. rewrite app_length. etransitivity; [|apply Nat.le_add_r]. clear. induction fks as [|f l IH]; [reflexivity|].
    cbn [map concat]. rewrite app_length. cbn [length]. lia. }
  unfold T1 at 2. rewrite p_fks_ok by assumption. reflexivity.
Qed.

(** *** the generated statements *)
Lemma num_flat s : flat (num_operand s) = true.
Proof. unfold num_operand. destruct s as [|c s]; [reflexivity|]. destruct c as [|p]; [reflexivity|]. repeat (destruct p as [p|p|]; try reflexivity). Qed.
Lemma compare_flat cn op f b : atom_flat (compare_atom cn op f b).
Proof. destruct f; split; try reflexivity. apply num_flat. Qed.
Lemma length_flat cn op z : Forall atom_flat (length_atom cn op z).
Proof. destruct z as [[|p|p]|]; cbn [length_atom]; constructor; try constructor; try reflexivity; try apply num_flat; constructor. Qed.
Lemma coldef_flat tr t c : def_flat (coldef_of tr t c).
Proof.
  unfold def_flat, coldef_of. cbn [cd_check]. destruct (cs_csvw c) as [d|]; [|constructor]. unfold atoms.
  destruct (di_min d); destruct (di_max d); cbn [opt_list app]; repeat (constructor; try apply compare_flat).
  apply Forall_app; split; [apply length_flat|]. apply Forall_app; split; apply length_flat.
Qed.
Theorem create_parses tr s : sql_clean tr s -> parse (table_sql tr s) = Some (create_of tr s).
Proof.
  intros H. pose proof (table_sql_toks tr s H) as T. unfold create_of in *. unfold parse. rewrite T. cbn [obind].
  rewrite p_create_ok; [reflexivity| | |].
  - pose proof (sc_some _ _ H). destruct (ts_cols s); [contradiction|discriminate].
  - apply Forall_forall. intros x Hx. apply in_map_iff in Hx. destruct Hx as (y & <- & _). apply coldef_flat.
  - intros f Hf. apply in_map_iff in Hf. destruct Hf as (fk & <- & Hfk). destruct (sc_fks _ _ H fk Hfk) as (A & B & _). cbn [fst snd].
    split; intros E; [destruct (fst (fst fk)); [contradiction|discriminate E]|destruct (snd fk); [contradiction|discriminate E]].
Qed.

(** *** INSERT, SELECT *)
Definition keyword w : tok := TWord w.
Lemma L_qs (n : pystr) : ~ In BT n -> L (quoted [n]) [TId n] (LTick n).
Proof. intros H. apply L_bt, H. Qed.
Fixpoint params (n : nat) : list tok := match n with O => [] | 1%nat => [TPunct 63] | S n => TPunct 63 :: comma :: params n end.
Lemma params_lex (keys : list pystr) : keys <> [] -> L (join (lit ",") (map (fun _ => lit "?") keys)) (params (length keys)) LStart.
Proof.
  induction keys as [|k keys IH]; intros N; [contradiction|]. destruct keys as [|k2 keys]; [split; reflexivity|].
  change (L ((lit "?" ++ lit ",") ++ join (lit ",") (map (fun _ => lit "?") (k2 :: keys))) ([TPunct 63; comma] ++ params (length (k2 :: keys))) LStart).
  apply LSS_app; [split; reflexivity|]. apply IH. discriminate.
Qed.
Lemma p_params_ok n r : p_params (params (S n) ++ TPunct 41 :: r) = Some (S n, TPunct 41 :: r).
Proof.
  induction n as [|n IH]; [reflexivity|]. change (params (S (S n)) ++ TPunct 41 :: r) with (TPunct 63 :: TPunct 44 :: (params (S n) ++ TPunct 41 :: r)).
  cbn [p_params]. rewrite IH. reflexivity.
Qed.
Lemma nn_names l : (forall n, In n l -> clean n) -> nn (quoted l).
Proof. intros H. apply nn_quoted. intros n Hn. apply (H n Hn). Qed.
Theorem insert_parses tr table keys : clean (tr table None) -> (forall k, In k keys -> clean (tr table (Some k))) -> keys <> [] ->
  parse (insert_sql tr table keys) = Some (SInsert (tr table None) (map (fun k => tr table (Some k)) keys) (length keys)).
Proof.
  intros Ht Hk N. set (cs := map (fun k => tr table (Some k)) keys).
  assert (Hc : forall n, In n cs -> clean n) by (intros n Hn; apply in_map_iff in Hn; destruct Hn as (k & <- & I); apply Hk, I).
  assert (Nc : cs <> []) by (unfold cs; destruct keys; [contradiction|discriminate]).
  assert (T : tokens (insert_sql tr table keys) = Some ([TWord (lit "INSERT"); TWord (lit "INTO")] ++ [TId (tr table None)] ++ names_toks cs ++ [TWord (lit "VALUES"); TPunct 40] ++ params (length keys) ++ [TPunct 41])).
  { unfold tokens. rewrite (nn_mem (insert_sql tr table keys)).
    - f_equal. unfold insert_sql. fold cs. change (lit "INSERT INTO ") with (lit "INSERT INTO ").
      match goal with |- lex ?t = ?k => assert (X : LG t k) end.
      { unfold names_toks.
        match goal with |- LG _ ?k => replace k with ([TWord (lit "INSERT"); TWord (lit "INTO")] ++ [TId (tr table None)] ++ [TPunct 40] ++ ids cs ++ [TPunct 41; TWord (lit "VALUES"); TPunct 40] ++ params (length keys) ++ [TPunct 41]) end.
        2: { cbn [app]. rewrite <- !app_assoc. reflexivity. }
        apply LS_app; [split; reflexivity|]. apply LG_app; [apply LG_bt, Ht| |reflexivity]. apply LS_app; [split; reflexivity|].
        apply LG_app; [|apply LS_app; [split; reflexivity|]|reflexivity].
        - apply LG_quoted; [exact Nc|]. apply Forall_forall. intros n Hn. apply (Hc n Hn).
        - apply LS_app; [apply params_lex, N|lconst]. }
      destruct X as (st & [X _] & _). exact X.
    - unfold insert_sql. apply nn_app; [nn_const|]. apply nn_app; [apply nn_names; intros n [<-|[]]; exact Ht|]. apply nn_app; [nn_const|].
      apply nn_app; [apply nn_names, Hc|]. apply nn_app; [nn_const|]. apply nn_app; [|nn_const].
      apply nn_join; [nn_const|]. apply Forall_forall. intros x Hx. apply in_map_iff in Hx. destruct Hx as (k & <- & _). nn_const. }
  unfold parse. rewrite T. cbn [obind]. change (p_create _) with (@None stmt). cbv iota. unfold p_insert. 
  match goal with |- context [expect _ ?x] => change (expect [W (lit "INSERT"); W (lit "INTO")] x) with (Some ([TId (tr table None)] ++ names_toks cs ++ [TWord (lit "VALUES"); TPunct 40] ++ params (length keys) ++ [TPunct 41])) end.
  cbn [obind p_id app fst snd]. rewrite p_names_ok by exact Nc. cbn [obind fst snd].
  match goal with |- context [expect [W (lit "VALUES"); Sql.P 40] ?x] => change (expect [W (lit "VALUES"); Sql.P 40] x) with (Some (params (length keys) ++ [TPunct 41])) end.
  cbn [obind]. destruct keys as [|k keys]; [contradiction|]. cbn [length]. rewrite p_params_ok. reflexivity.
Qed.
Lemma select_tokens n : lex (select_sql n) = [TWord (lit "SELECT"); TPunct 42; TWord (lit "FROM")] ++ lex (bt n).
Proof.
  unfold select_sql. change (quoted [n]) with (bt n).
  apply (L_app (lit "SELECT * FROM ") _ LStart (bt n) (lex (bt n)) (final (bt n))); [split; reflexivity|split; reflexivity|reflexivity].
Qed.
Theorem select_parses n : clean n -> parse (select_sql n) = Some (SSelectAll n).
Proof.
  intros [H1 H2]. unfold parse, tokens. rewrite (nn_mem (select_sql n)).
  - rewrite select_tokens. unfold bt. rewrite (proj1 (L_bt n H1)). reflexivity.
  - apply nn_app; [nn_const|]. apply nn_bt, H2.
Qed.
Theorem group_parses tr a context :
  clean (tr (as_name a) (Some (as_afk a))) -> clean (tr (as_name a) (Some (as_bfk a))) -> clean (tr (as_name a) None) ->
  ~ In QT context -> ~ In 0 context ->
  parse (group_sql tr a context) =
  Some (SGroup (tr (as_name a) (Some (as_afk a))) (tr (as_name a) (Some (as_bfk a))) (tr (as_name a) None) (Some context)).
Proof.
  intros [A1 A2] [B1 B2] [C1 C2] Q1 Q2.
  set (an := tr (as_name a) (Some (as_afk a))) in *. set (bn := tr (as_name a) (Some (as_bfk a))) in *. set (tn := tr (as_name a) None) in *.
  set (gc := [TPunct 44; TWord (lit "GROUP_CONCAT"); TPunct 40]).
  set (mid := [TPunct 44; TStr (lit " "); TPunct 41; TPunct 44; TWord (lit "GROUP_CONCAT"); TPunct 40; TWord (lit "COALESCE"); TPunct 40; TWord (lit "CONTEXT"); TPunct 44; TStr [];
                TPunct 41; TPunct 44; TStr (lit "||"); TPunct 41; TWord (lit "FROM")]).
  assert (T : tokens (group_sql tr a context) = Some ([TWord (lit "SELECT")] ++ [TId an] ++ gc ++ [TId bn] ++ mid ++ [TId tn] ++ [TWord (lit "WHERE"); TWord (lit "CONTEXT"); TPunct 61] ++ [TStr context] ++ [TWord (lit "GROUP"); TWord (lit "BY")] ++ [TId an])).
  { unfold tokens. rewrite (nn_mem (group_sql tr a context)).
    - f_equal. unfold group_sql. fold an bn tn.
      match goal with |- lex ?t = ?k => assert (X : LG t k) end.
      { change (lit " WHERE context = '") with (lit " WHERE context = " ++ [QT]). change (lit "' GROUP BY ") with ([QT] ++ lit " GROUP BY ").
        change (lit ", ' '), group_concat(COALESCE(context, ''), '||')" ++ [LF] ++ lit "FROM " ++ quoted [tn] ++ (lit " WHERE context = " ++ [QT]) ++ context ++ ([QT] ++ lit " GROUP BY ") ++ quoted [an])
          with ((lit ", ' '), group_concat(COALESCE(context, ''), '||')" ++ [LF] ++ lit "FROM ") ++ quoted [tn] ++ (lit " WHERE context = " ++ [QT]) ++ context ++ ([QT] ++ lit " GROUP BY ") ++ quoted [an]).
        replace ((lit " WHERE context = " ++ [QT]) ++ context ++ ([QT] ++ lit " GROUP BY ") ++ quoted [an])
          with (lit " WHERE context = " ++ (QT :: context ++ [QT]) ++ lit " GROUP BY " ++ quoted [an]).
        2: { change (QT :: context ++ [QT]) with ([QT] ++ context ++ [QT]). rewrite <- !app_assoc. reflexivity. }
        apply LS_app; [split; reflexivity|]. apply LG_app; [apply LG_bt, A1| |reflexivity]. apply LS_app; [split; reflexivity|].
        apply LG_app; [apply LG_bt, B1| |reflexivity]. apply LS_app; [split; vm_compute; reflexivity|].
        apply LG_app; [apply LG_bt, C1| |reflexivity]. apply LS_app; [split; vm_compute; reflexivity|].
        apply LG_app; [apply LG_str, Q1| |reflexivity]. apply LS_app; [split; vm_compute; reflexivity|apply LG_bt, A1]. }
      destruct X as (st & [X _] & _). exact X.
    - unfold group_sql. fold an bn tn.
      assert (Q : forall n, ~ In 0 n -> nn (quoted [n])) by (intros n Hn; apply nn_quoted; intros m [<-|[]]; exact Hn).
      repeat first [apply Q; assumption|apply nn_not; assumption|nn_const|apply nn_app]. }
  unfold parse. rewrite T. cbn [obind]. change (p_create _) with (@None stmt). change (p_insert _) with (@None stmt). change (p_select_all _) with (@None stmt). cbv iota.
  unfold gc, mid. cbn [app]. unfold p_group.
  repeat (cbn [expect obind p_id fst snd]; match goal with |- context [if ?f ?k then _ else None] => change (f k) with true; cbv iota end).
  cbn [expect obind p_id fst snd]. rewrite str_eqb_refl. reflexivity.
Qed.

(** *** names with a backtick *)
Definition toks (st : lstate) (s : pystr) : list tok := fst (run st s) ++ flush (snd (run st s)).
Lemma toks_cons st c s : toks st (c :: s) = fst (step st c) ++ toks (snd (step st c)) s.
Proof. unfold toks. cbn [run]. destruct (step st c) as [t st']. cbn [fst snd]. destruct (run st' s) as [t' st'']. cbn [fst snd]. rewrite app_assoc. reflexivity. Qed.
(** the first token is a broken name, or one of at most [k] characters *)
Definition short (k : nat) (l : list tok) : Prop := match l with TBad :: _ => True | TId x :: _ => (length x <= k)%nat | _ => False end.
Lemma short_le a b l : (a <= b)%nat -> short a l -> short b l.
Proof. intros H. destruct l as [|[] l]; cbn; auto. lia. Qed.
Lemma name_short s : forall acc, short (length acc + length s - 1) (toks (LId acc) s) /\ short (length acc + length s) (toks (LTick acc) s).
Proof.
  induction s as [|c s IH]; intros acc.
  - split; cbn; [exact I|lia].
  - rewrite !toks_cons. cbn [step breaks]. split.
    + change (breaks (LId acc) c) with false. unfold step. cbn [breaks]. destruct (c =? BT); cbn [fst snd app].
      * eapply short_le; [|apply (proj2 (IH acc))]. cbn [length]. lia.
      * eapply short_le; [|apply (proj1 (IH (acc ++ [c])))]. rewrite app_length. cbn [length]. lia.
    + unfold step. cbn [breaks]. destruct (c =? BT); cbn [negb].
      * cbn [fst snd app]. eapply short_le; [|apply (proj1 (IH (acc ++ [c])))]. rewrite app_length. cbn [length]. lia.
      * destruct (start c) as [t st']. cbn [fst snd flush app]. cbn. lia.
Qed.
Lemma backtick_short n : forall acc, In BT n -> short (length acc + length n - 1) (toks (LId acc) (n ++ [BT])).
Proof.
  induction n as [|c n IH]; intros acc H; [destruct H|]. cbn [app]. rewrite toks_cons. unfold step. cbn [breaks].
  destruct (c =? BT) eqn:E; cbn [fst snd app].
  - destruct n as [|d n]; cbn [app].
    + cbn. lia.
    + rewrite toks_cons. unfold step. cbn [breaks]. destruct (d =? BT); cbn [negb].
      * cbn [fst snd app]. eapply short_le; [|apply name_short]. rewrite !app_length. cbn [length]. lia.
      * destruct (start d) as [t st']. cbn [fst snd flush app]. cbn. lia.
  - destruct H as [->|H]; [discriminate E|]. eapply short_le; [|apply (IH _ H)]. rewrite app_length. cbn [length]. lia.
Qed.
Theorem backtick_name n rest : In BT n -> lex (bt n) <> TId n :: rest.
Proof.
  intros H E. assert (S1 : short (length n - 1) (lex (bt n))).
  { replace (lex (bt n)) with (toks (LId []) (n ++ [BT])); [apply (backtick_short n [] H)|].
    unfold lex, bt. cbn [run]. change (step LStart BT) with (@nil tok, LId []). cbv iota beta. unfold toks.
    destruct (run (LId []) (n ++ [BT])). reflexivity. }
  rewrite E in S1. cbn in S1. destruct n; [destruct H|]. cbn [length] in S1. lia.
Qed.
