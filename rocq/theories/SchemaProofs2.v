(** The warnings of Schema construction. *)
From Verif Require Import PyStr Dsv DsvProofs4 Json NatLang Column Schema SchemaSpec SchemaProofs DbWriteProofs6.
From Coq Require Import Lia.
Section S.
Context {V : Type}.
Implicit Types cols : list (column V).
Lemma bad_name_iff n : bad_name n = true <-> odd_name n.
Proof.
  unfold bad_name, odd_name. rewrite orb_true_iff, startswith_spec, existsb_exists. tauto.
Qed.
Lemma name_dec (c : column V) : (exists n, has_name c n /\ truthy_name (c_name c) = Some n) \/ ((forall n, ~ has_name c n) /\ truthy_name (c_name c) = None).
Proof.
  unfold has_name, truthy_name. destruct (c_name c) as [[|x n]|]; cbn [nonempty_opt].
  - right. split; [intros n [H K]; congruence|reflexivity].
  - left. exists (x :: n). repeat split. discriminate.
  - right. split; [intros n [H _]; discriminate|reflexivity].
Qed.
Lemma same_header_cons c cols : same_header (c :: cols) <-> same_header cols \/ exists c' h, In c' cols /\ c_virtual c = false /\ c_virtual c' = false /\ header c = Ok h /\ header c' = Ok h.
Proof.
  unfold same_header. split.
  - intros ([|b before] & c1 & mid & c2 & after & h & E & H); cbn [app] in E.
    + injection E as -> ->. right. exists c2, h. split; [apply in_or_app; right; left; reflexivity|tauto].
    + injection E as -> ->. left. exists before, c1, mid, c2, after, h. tauto.
  - intros [(before & c1 & mid & c2 & after & h & -> & H)|(c' & h & Hin & H)].
    + exists (c :: before), c1, mid, c2, after, h. split; [reflexivity|tauto].
    + apply in_split in Hin. destruct Hin as (m & a & ->). exists [], c, m, c', a, h. split; [reflexivity|tauto].
Qed.
Definition invalid_in cols : Prop := exists c n, In c cols /\ has_name c n /\ odd_name n.
Lemma invalid_cons c cols : invalid_in (c :: cols) <-> (exists n, has_name c n /\ odd_name n) \/ invalid_in cols.
Proof.
  unfold invalid_in. split.
  - intros (c0 & n & [<-|H] & K); [left; exists n; exact K|right; exists c0, n; tauto].
  - intros [(n & K)|(c0 & n & H & K)]; [exists c, n; split; [left; reflexivity|exact K]|exists c0, n; split; [right; exact H|exact K]].
Qed.
Lemma loop_warns cols : forall i v seen names r, schema_loop i v seen names cols = Ok r ->
  (In InvalidColumnName (snd r) <-> invalid_in cols)
  /\ (In DuplicateColumnName (snd r) <-> same_header cols \/ exists c h, In c cols /\ c_virtual c = false /\ header c = Ok h /\ In h seen)
  /\ forall x, In x (snd r) -> x = InvalidColumnName \/ x = DuplicateColumnName.
Proof.
  induction cols as [|c cols IH]; intros i v seen names r H; cbn [schema_loop] in H.
  - apply Ok_inj in H. subst r. cbn [snd In]. split; [|split].
    + split; [intros []|intros (c & n & [] & _)].
    + split; [intros []|intros [(b & c & m & c' & a & h & E & _)|(c & h & [] & _)]; destruct b; discriminate E].
    + intros x [].
  - set (w1 := match truthy_name (c_name c) with Some n => if bad_name n then [InvalidColumnName] else [] | None => [] end) in *.
    assert (W1 : (In InvalidColumnName w1 <-> exists n, has_name c n /\ odd_name n) /\ ~ In DuplicateColumnName w1 /\ forall x, In x w1 -> x = InvalidColumnName \/ x = DuplicateColumnName).
    { unfold w1. destruct (name_dec c) as [(n & Hn & ->)|[Hn ->]].
      - destruct (bad_name n) eqn:B.
        + apply bad_name_iff in B. split; [|split]; [split; [intros _; exists n; auto|intros _; left; reflexivity]|intros [H0|[]]; discriminate H0|intros x [<-|[]]; left; reflexivity].
        + split; [|split]; [split; [intros []|intros (m & Hm & O)]; apply bad_name_iff in O; destruct Hn as [Hn _], Hm as [Hm _]; rewrite Hn in Hm; injection Hm as <-; congruence|intros []|intros x []].
      - split; [|split]; [split; [intros []|intros (m & Hm & _); exact (Hn m Hm)]|intros []|intros x []]. }
    clearbody w1. destruct W1 as (W1 & W2 & W3).
    assert (Comb : forall w2 r0 (X : Prop), (In InvalidColumnName (snd r0) <-> invalid_in cols) -> (In DuplicateColumnName (w2 ++ snd r0) <-> X) -> (forall x, In x (w2 ++ snd r0) -> x = InvalidColumnName \/ x = DuplicateColumnName) -> ~ In InvalidColumnName w2 ->
      (In InvalidColumnName (w1 ++ w2 ++ snd (r0 : list (column V) * list warning)) <-> invalid_in (c :: cols)) /\ (In DuplicateColumnName (w1 ++ w2 ++ snd r0) <-> X) /\ forall x, In x (w1 ++ w2 ++ snd r0) -> x = InvalidColumnName \/ x = DuplicateColumnName).
    { intros w2 r0 X A B C D. split; [|split].
      - rewrite !in_app_iff, invalid_cons, <- A, <- W1. tauto.
      - rewrite in_app_iff, <- B. tauto.
      - intros x Hx. apply in_app_iff in Hx. destruct Hx as [Hx|Hx]; [apply W3; exact Hx|apply C; exact Hx]. }
    destruct (negb (c_virtual c) && v) eqn:E1; [discriminate H|]. destruct (c_virtual c) eqn:Ev.
    + rewrite orb_true_r in H. destruct (schema_loop (S i) true seen names cols) as [r0|] eqn:E; [|discriminate H]. cbn [bind] in H. apply Ok_inj in H. subst r. cbn [snd]. destruct (IH _ _ _ _ _ E) as (A & B & C).
      apply (Comb [] r0); [exact A| |exact C|intros []]. cbn [app]. rewrite B, same_header_cons. split.
      * intros [K|(c1 & h & Hin & K)]; [left; left; exact K|right; exists c1, h; split; [right; exact Hin|exact K]].
      * intros [[K|(c1 & h & _ & K & _)]|(c1 & h & [<-|Hin] & K)]; [left; exact K|congruence|destruct K; congruence|right; exists c1, h; auto].
    + cbn [negb andb] in E1. subst v. cbn [orb] in H. destruct (header c) as [h|] eqn:Eh; [|discriminate H]. cbn [bind] in H.
      set (w2 := if str_mem h seen then [DuplicateColumnName] else []) in *.
      assert (Fin : forall names' r0, schema_loop (S i) false (h :: seen) names' cols = Ok r0 ->
        (In InvalidColumnName (w1 ++ w2 ++ snd r0) <-> invalid_in (c :: cols)) /\ (In DuplicateColumnName (w1 ++ w2 ++ snd r0) <-> same_header (c :: cols) \/ exists c1 h1, In c1 (c :: cols) /\ c_virtual c1 = false /\ header c1 = Ok h1 /\ In h1 seen) /\ forall x, In x (w1 ++ w2 ++ snd r0) -> x = InvalidColumnName \/ x = DuplicateColumnName).
      { intros names' r0 E. destruct (IH _ _ _ _ _ E) as (A & B & C). apply (Comb w2 r0).
        - exact A.
        - rewrite in_app_iff, B, same_header_cons. assert (D : In DuplicateColumnName w2 <-> In h seen).
          { unfold w2. destruct (str_mem h seen) eqn:M; [apply str_mem_In in M; split; [intros _; exact M|intros _; left; reflexivity]|apply str_mem_false in M; split; [intros []|contradiction]]. }
          rewrite D. split.
          + intros [K|[K|(c1 & h1 & Hin & K1 & K2 & [<-|K3])]].
            * right. exists c, h. split; [left; reflexivity|auto].
            * left; left; exact K.
            * left; right. exists c1, h. auto.
            * right. exists c1, h1. split; [right; exact Hin|auto].
          + intros [[K|(c1 & h1 & Hin & K1 & K2 & K3 & K4)]|(c1 & h1 & [<-|Hin] & K1 & K2 & K3)].
            * right; left; exact K.
            * right; right. exists c1, h1. rewrite Eh in K3. apply Ok_inj in K3. subst h1. split; [exact Hin|]. split; [exact K2|]. split; [exact K4|left; reflexivity].
            * left. rewrite Eh in K2. apply Ok_inj in K2. subst h1. exact K3.
            * right; right. exists c1, h1. split; [exact Hin|]. split; [exact K1|]. split; [exact K2|right; exact K3].
        - intros x Hx. apply in_app_iff in Hx. destruct Hx as [Hx|Hx]; [|apply C; exact Hx]. unfold w2 in Hx. destruct (str_mem h seen); [destruct Hx as [<-|[]]; right; reflexivity|destruct Hx].
        - unfold w2. destruct (str_mem h seen); [intros [K|[]]; discriminate K|intros []]. }
      destruct (truthy_name (c_name c)) as [n|].
      * destruct (str_mem n names); [discriminate H|]. destruct (schema_loop (S i) false (h :: seen) (n :: names) cols) as [r0|] eqn:E; [|discriminate H]. cbn [bind] in H. apply Ok_inj in H. subst r. cbn [snd]. exact (Fin _ _ E).
      * destruct (schema_loop (S i) false (h :: seen) names cols) as [r0|] eqn:E; [|discriminate H]. cbn [bind] in H. apply Ok_inj in H. subst r. cbn [snd]. exact (Fin _ _ E).
Qed.
(** columndict: the last column of a header *)
Lemma columndict_last cols d k : columndict cols = Ok d -> match dget str_eqb d k with Some c => last_column cols k c | None => forall c, ~ last_column cols k c end.
Proof.
  unfold columndict. destruct (mapM header cols) as [hs|] eqn:E; [|discriminate]. cbn [bind]. intros H. apply Ok_inj in H. subst d.
  apply mapM_Forall2 in E. rewrite (dget_dset_all str_eqb str_eqb_eq). cbn [dget].
  assert (G : match dget str_eqb (rev (combine hs cols)) k with Some c => last_column cols k c | None => forall c, In c cols -> header c <> Ok k end).
  { clear -E. induction E as [|c h cols hs Hh E IH]; cbn [combine rev]; [intros c []|]. rewrite (dget_app str_eqb). 
    destruct (dget str_eqb (rev (combine hs cols)) k) as [c'|].
    - destruct IH as (b & a & -> & H). exists (c :: b), a. split; [reflexivity|exact H].
    - cbn [dget]. destruct (str_eqb k h) eqn:Ek.
      + apply str_eqb_eq in Ek. subst h. exists [], cols. split; [reflexivity|auto].
      + intros c0 [<-|Hin]; [|apply IH; exact Hin]. intros K. rewrite Hh in K. apply Ok_inj in K. subst h. rewrite str_eqb_refl in Ek. discriminate. }
  destruct (dget str_eqb (rev (combine hs cols)) k); [exact G|]. intros c (b & a & -> & Hc & _). exact (G c ltac:(apply in_or_app; right; left; reflexivity) Hc).
Qed.
Lemma last_functional cols k c c' : last_column cols k c -> last_column cols k c' -> c = c'.
Proof.
  intros (b & a & -> & H & N1) (b' & a' & E & H' & N2). revert b' E. induction b as [|x b IH]; intros [|x' b'] E; cbn [app] in E.
  - congruence.
  - injection E as -> ->. exfalso. apply (N1 c'); [apply in_or_app; right; left; reflexivity|exact H'].
  - injection E as -> <-. exfalso. apply (N2 c); [apply in_or_app; right; left; reflexivity|exact H].
  - injection E as _ E. exact (IH b' E).
Qed.
Lemma check_pk_spec cols pk : forall acc r, check_pk cols pk acc = Ok r ->
  (forall x, In x (snd r) -> x = PrimaryKeyWithoutName)
  /\ (nameless_key cols (Some pk) /\ In PrimaryKeyWithoutName (snd r) /\ fst r = None \/ ~ nameless_key cols (Some pk) /\ snd r = [] /\ fst r = acc).
Proof.
  induction pk as [|k pk IH]; intros acc r H; cbn [check_pk] in H.
  - apply Ok_inj in H. subst r. split; [intros x []|right]. split; [|split; reflexivity]. intros (ks & k & c & E & Hin & _). injection E as <-. destruct Hin.
  - destruct (columndict cols) as [d|] eqn:Ed; [|discriminate H]. cbn [bind] in H. pose proof (columndict_last cols d k Ed) as L.
    assert (Cons : nameless_key cols (Some (k :: pk)) <-> (exists c, last_column cols k c /\ forall n, ~ has_name c n) \/ nameless_key cols (Some pk)).
    { unfold nameless_key. split.
      - intros (ks & k0 & c & E & Hin & K). injection E as <-. destruct Hin as [<-|Hin]; [left; exists c; exact K|right; exists pk, k0, c; auto].
      - intros [(c & K)|(ks & k0 & c & E & Hin & K)]; [exists (k :: pk), k, c; split; [reflexivity|]; split; [left; reflexivity|exact K]|injection E as <-; exists (k :: pk), k0, c; split; [reflexivity|]; split; [right; exact Hin|exact K]]. }
    rewrite Cons. clear Cons.
    assert (Skip : forall r', check_pk cols pk acc = Ok r' -> ~ (exists c, last_column cols k c /\ forall n, ~ has_name c n) -> (forall x, In x (snd r') -> x = PrimaryKeyWithoutName) /\ (((exists c, last_column cols k c /\ forall n, ~ has_name c n) \/ nameless_key cols (Some pk)) /\ In PrimaryKeyWithoutName (snd r') /\ fst r' = None \/ ~ ((exists c, last_column cols k c /\ forall n, ~ has_name c n) \/ nameless_key cols (Some pk)) /\ snd r' = [] /\ fst r' = acc)).
    { intros r' E Nk. destruct (IH acc r' E) as [A B]. split; [exact A|]. tauto. }
    destruct (dget str_eqb d k) as [c|].
    + destruct (name_dec c) as [(n & Hn & En)|[Hn En]]; rewrite En in H.
      * apply Skip; [exact H|]. intros (c0 & Hc & N0). rewrite (last_functional cols k c0 c Hc L) in N0. exact (N0 n Hn).
      * destruct (check_pk cols pk None) as [r0|] eqn:E0; [|discriminate H]. cbn [bind] in H. apply Ok_inj in H. subst r. cbn [fst snd]. destruct (IH None r0 E0) as [A B]. split; [intros x [<-|Hx]; [reflexivity|apply A; exact Hx]|]. left. split; [left; exists c; auto|]. split; [left; reflexivity|]. destruct B as [B|B]; tauto.
    + apply Skip; [exact H|]. intros (c0 & Hc & _). exact (L c0 Hc).
Qed.
Theorem schema_warnings (s s' : schema V) w : schema_init s = Ok (s', w) ->
  (In InvalidColumnName w <-> exists c n, In c (s_columns s) /\ has_name c n /\ odd_name n)
  /\ (In DuplicateColumnName w <-> same_header (s_columns s))
  /\ (In PrimaryKeyWithoutName w <-> nameless_key (s_columns s') (s_primaryKey s))
  /\ (forall x, In x w -> x = InvalidColumnName \/ x = DuplicateColumnName \/ x = PrimaryKeyWithoutName)
  /\ (nameless_key (s_columns s') (s_primaryKey s) -> s_primaryKey s' = None)
  /\ (~ nameless_key (s_columns s') (s_primaryKey s) -> s_primaryKey s' = s_primaryKey s)
  /\ s_desc s' = s_desc s /\ s_foreignKeys s' = s_foreignKeys s.
Proof.
  unfold schema_init. destruct (schema_loop 0 false [] [] (s_columns s)) as [r|] eqn:E; [|discriminate]. cbn [bind]. destruct (check_pk (fst r) (getdef (s_primaryKey s) []) (s_primaryKey s)) as [p|] eqn:P; [|discriminate]. cbn [bind]. intros H. apply Ok_inj in H. injection H as <- <-. cbn [s_columns s_primaryKey s_desc s_foreignKeys].
  destruct (loop_warns _ _ _ _ _ _ E) as (A & B & C). destruct (check_pk_spec _ _ _ _ P) as (D & F).
  assert (NK : nameless_key (fst r) (Some (getdef (s_primaryKey s) [])) <-> nameless_key (fst r) (s_primaryKey s)).
  { destruct (s_primaryKey s) as [ks|]; [reflexivity|]. cbn [getdef]. unfold nameless_key. split; intros (ks & k & c & E0 & Hin & _); [injection E0 as <-; destruct Hin|discriminate E0]. }
  rewrite <- NK. split; [|split; [|split; [|split; [|split; [|split; [|split]]]]]].
  - rewrite in_app_iff, A. split; [intros [K|K]; [exact K|apply D in K; discriminate K]|left; assumption].
  - rewrite in_app_iff, B. split; [intros [[K|(c & h & _ & _ & _ & [])]|K]; [exact K|apply D in K; discriminate K]|intros K; left; left; exact K].
  - rewrite in_app_iff. split; [intros [K|K]; [apply C in K; destruct K; discriminate|]|]; [destruct F as [F|(F1 & F2 & F3)]; [tauto|rewrite F2 in K; destruct K]|]. intros K. right. destruct F as [F|F]; tauto.
  - intros x Hx. apply in_app_iff in Hx. destruct Hx as [Hx|Hx]; [destruct (C x Hx); auto|right; right; apply D; exact Hx].
  - intros K. destruct F as [F|F]; tauto.
  - intros K. destruct F as [F|F]; tauto.
  - reflexivity.
  - reflexivity.
Qed.
End S.
