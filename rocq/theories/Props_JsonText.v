(** C58: JSON texts. *)
From Verif Require Import PyStr Dec Dsv Json JsonText JsonTextSpec JsonTextProofs JsonTextProofs2 JsonTextProofs3.
From Coq Require Import ZifyBool ZifyN ZifyNat.

(** json.loads reads exactly the texts of the grammar, each as what it denotes; anything else is a ValueError *)
Theorem c58_loads : forall fr s j, loads fr s = Some j <-> json_text fr s j.
Proof. exact loads_iff. Qed.
Print Assumptions c58_loads.
Theorem c58_one_meaning : forall fr s j k, json_text fr s j -> json_text fr s k -> j = k.
Proof. intros fr s j k H K. apply loads_iff in H, K. congruence. Qed.
Print Assumptions c58_one_meaning.
(** what json.dumps writes, on one line or indented, is read back as the same value, keys in the same order *)
Theorem c58_roundtrip : forall fr st j, st = one_line \/ st = indented -> good fr j -> loads fr (dumps st j) = Some j.
Proof.
  intros fr st j Hst G. apply loads_iff. exists [], (dumps st j), []. split; [constructor|]. split; [constructor|]. split; [rewrite app_nil_r; reflexivity|].
  apply dump_text; [|exact G]. destruct Hst as [-> | ->]; [apply one_line_ok|apply indented_ok].
Qed.
Print Assumptions c58_roundtrip.
(** so different values have different texts *)
Theorem c58_distinct : forall fr st j k, st = one_line \/ st = indented -> good fr j -> good fr k -> dumps st j = dumps st k -> j = k.
Proof. intros fr st j k Hst G K E. pose proof (c58_roundtrip fr st j Hst G) as A. pose proof (c58_roundtrip fr st k Hst K) as B. rewrite E in A. congruence. Qed.
Print Assumptions c58_distinct.

(** A JSON cell is one line of printable ASCII characters. *)
Definition printable (s : pystr) : Prop := Forall (fun c => 32 <= c <= 126) s.
Lemma printable_app a b : printable a -> printable b -> printable (a ++ b). Proof. intros; apply Forall_app; split; assumption. Qed.
Lemma hexdigit_printable n : n < 16 -> 32 <= hexdigit n <= 126. Proof. unfold hexdigit. destruct (N.ltb_spec n 10); lia. Qed.
Lemma u_escape_printable n : printable (u_escape n).
Proof. assert (M : forall x, x mod 16 < 16) by (intros x; apply N.mod_lt; lia). unfold u_escape. repeat (constructor; [first [apply hexdigit_printable, M|lia]|]). constructor. Qed.
Lemma lit1_printable c : 32 <= c <= 126 -> printable [c]. Proof. intros; constructor; [assumption|constructor]. Qed.
Lemma dump_str_printable s : printable (dump_str s).
Proof.
  unfold dump_str. apply printable_app; [constructor; [lia|constructor]|]. apply printable_app; [|constructor; [lia|constructor]]. induction s as [|c s IH]; [constructor|]. cbn [flat_map]. apply printable_app; [|exact IH]. unfold escape_char.
  assert (P2 : forall x, 32 <= x <= 126 -> printable [92; x]) by (intros x Hx; constructor; [lia|constructor; [exact Hx|constructor]]).
  repeat (match goal with |- printable (if ?b then _ else _) => destruct b eqn:?; [first [apply P2; lia|apply lit1_printable; lia|apply u_escape_printable]|] end). apply printable_app; apply u_escape_printable.
Qed.
Lemma digits_printable ds : digits ds -> printable ds. Proof. intros [_ F]. eapply Forall_impl; [|exact F]. cbn. lia. Qed.
Lemma float_printable t : float_text t -> printable t.
Proof.
  intros (neg & ds & fp & ep & Hn & Hf & He & _ & ->). apply printable_app; [destruct neg; [apply (lit1_printable 45); lia|constructor]|]. apply printable_app; [apply digits_printable, Hn|]. apply printable_app.
  - destruct Hf as [->|(d & Hd & ->)]; [constructor|]. apply printable_app; [apply (lit1_printable 46); lia|apply digits_printable, Hd].
  - destruct He as [->|(e & sg & d & He & Hs & Hd & ->)]; [constructor|]. apply printable_app; [destruct He as [-> | ->]; [apply (lit1_printable 101); lia|apply (lit1_printable 69); lia]|]. apply printable_app; [|apply digits_printable, Hd].
    destruct Hs as [->|[->| ->]]; [constructor|apply (lit1_printable 43); lia|apply (lit1_printable 45); lia].
Qed.
Lemma int_printable z : printable (int_str z).
Proof. destruct z as [|p|p]; [apply digits_printable, (digits_of_natural 0)|apply digits_printable, (digits_of_natural (Npos p))|apply (printable_app [45]); [apply lit1_printable; lia|apply digits_printable, (digits_of_natural (Npos p))]]. Qed.
Lemma lit_printable s : forallb (fun c => (32 <=? c) && (c <=? 126)) s = true -> printable s.
Proof. intros H. apply Forall_forall. intros c Hc. rewrite forallb_forall in H. specialize (H c Hc). lia. Qed.
Lemma join_printable sep l : printable sep -> Forall printable l -> printable (join sep l).
Proof. intros Hs H. induction H as [|x l Hx H IH]; [constructor|]. destruct l as [|y l]; [exact Hx|]. change (printable (x ++ sep ++ join sep (y :: l))). apply printable_app; [exact Hx|]. apply printable_app; [exact Hs|exact IH]. Qed.
Theorem c58_cell_ascii : forall fr j, good fr j -> Forall (fun c => 32 <= c <= 126) (json_write j).
Proof.
  intros fr j G. unfold json_write, dumps. generalize 0%nat as level. revert G. induction j as [|b|z|r|s|l IH|kvs IH] using json_ind'; intros G level; inversion G; subst.
  - apply lit_printable. reflexivity.
  - destruct b; apply lit_printable; reflexivity.
  - apply int_printable.
  - match goal with H : float_token _ _ |- _ => destruct H as [H|[H _]] end; [match goal with H : In _ _ |- _ => destruct H as [<-|[<-|[<-|[]]]] end; apply lit_printable; reflexivity|].
    cbn [dump]. unfold dump_float. repeat match goal with |- Forall _ (if ?b then _ else _) => destruct b; [apply lit_printable; reflexivity|] end. apply float_printable. assumption.
  - apply dump_str_printable.
  - destruct l as [|x l]; [apply lit_printable; reflexivity|]. change (printable (lit "[" ++ [] ++ join (lit ", " ++ []) (map (fun x => dump one_line (S level) x) (x :: l)) ++ [] ++ lit "]")). apply printable_app; [apply lit_printable; reflexivity|]. apply printable_app; [constructor|]. apply printable_app; [|apply lit_printable; reflexivity].
    apply join_printable; [apply lit_printable; reflexivity|]. apply Forall_forall. intros t Ht. apply in_map_iff in Ht. destruct Ht as (y & <- & Hy). rewrite Forall_forall in IH. match goal with H : Forall (good fr) _ |- _ => rewrite Forall_forall in H; apply IH; [exact Hy|apply H, Hy] end.
  - destruct kvs as [|x kvs]; [apply lit_printable; reflexivity|]. change (printable (lit "{" ++ [] ++ join (lit ", " ++ []) (map (fun kv => dump_str (fst kv) ++ lit ": " ++ dump one_line (S level) (snd kv)) (x :: kvs)) ++ [] ++ lit "}")). apply printable_app; [apply lit_printable; reflexivity|]. apply printable_app; [constructor|]. apply printable_app; [|apply lit_printable; reflexivity].
    apply join_printable; [apply lit_printable; reflexivity|]. apply Forall_forall. intros t Ht. apply in_map_iff in Ht. destruct Ht as (y & <- & Hy). rewrite Forall_forall in IH. apply printable_app; [apply dump_str_printable|]. apply printable_app; [apply lit_printable; reflexivity|].
    match goal with H : Forall (fun kv => good_str (fst kv) /\ good fr (snd kv)) _ |- _ => rewrite Forall_forall in H; specialize (H y Hy); apply IH; [exact Hy|apply H] end.
Qed.
Print Assumptions c58_cell_ascii.

(** ** Cells of datatype json.  A format that is the text of a JSON schema is imposed, unless Python counts the schema as false. *)
Definition imposed (fr : pystr -> pystr) (S : schemas) (fmt : option pystr) (sch : json) : Prop :=
  exists f, fmt = Some f /\ json_text fr f sch /\ sc_ok S sch = true /\ sch <> JBool false /\ sch <> JObj [].
Lemma text_nonempty fr f j : json_text fr f j -> f <> [].
Proof. intros (w1 & t & w2 & _ & _ & E & Ht) ->. apply text_starts in Ht. destruct w1; [|discriminate E]. destruct t; [contradiction|discriminate E]. Qed.
(** a cell is read iff it is a JSON text whose value satisfies the schema imposed, as that value; else ValueError.
    (A schema is an object or a boolean.) *)
Theorem c58_cell_read : forall fr S fmt v j, (forall sch, sc_ok S sch = true -> exists b kvs, sch = JBool b \/ sch = JObj kvs) ->
  (json_read fr S fmt v = Ok j <-> json_text fr v j /\ forall sch, imposed fr S fmt sch -> sc_valid S sch j = true)
  /\ (forall e, json_read fr S fmt v = Err e -> e = ValueError).
Proof.
  intros fr S fmt v j HS. assert (Sch : forall sch, (json_schema fr S fmt = Some sch /\ truthy sch = true) <-> imposed fr S fmt sch).
  { intros sch. unfold json_schema, imposed. split.
    - intros [H T]. destruct fmt as [[|c f]|]; try discriminate H. destruct (loads fr (c :: f)) as [x|] eqn:E; [|discriminate H]. destruct (sc_ok S x) eqn:Eo; [|discriminate H]. injection H as ->. exists (c :: f). split; [reflexivity|]. split; [apply loads_iff, E|]. split; [exact Eo|]. split; intros ->; discriminate T.
    - intros (f & -> & Hf & Ho & Nf & No). pose proof (text_nonempty fr f sch Hf) as Ne. apply loads_iff in Hf. destruct f as [|c f]; [congruence|]. rewrite Hf, Ho. split; [reflexivity|].
      destruct (HS _ Ho) as (b & kvs & [-> | ->]); [destruct b; [reflexivity|congruence]|]. destruct kvs; [congruence|reflexivity]. }
  unfold json_read. destruct (loads fr v) as [x|] eqn:E.
  2:{ split; [|intros e H; congruence]. split; [discriminate|]. intros [H _]. apply loads_iff in H. congruence. }
  destruct (json_schema fr S fmt) as [sch|] eqn:Es.
  - destruct (truthy sch) eqn:T; cbn [andb].
    + destruct (sc_valid S sch x) eqn:Ev; cbn [negb]; split.
      * split; [intros H; apply Ok_inj in H; subst x|intros [H _]; apply loads_iff in H; congruence]. split; [apply loads_iff, E|]. intros s' H. apply Sch in H. destruct H as [H _]. congruence.
      * intros e H; discriminate H.
      * split; [discriminate|]. intros [H Q]. apply loads_iff in H. assert (x = j) by congruence. subst x. rewrite (Q sch) in Ev; [discriminate Ev|]. apply Sch. split; [reflexivity|exact T].
      * intros e H; congruence.
    + split; [|intros e H; discriminate H]. split; [intros H; apply Ok_inj in H; subst x|intros [H _]; apply loads_iff in H; congruence]. split; [apply loads_iff, E|]. intros s' H. apply Sch in H. destruct H as [H1 H2]. congruence.
  - split; [|intros e H; discriminate H]. split; [intros H; apply Ok_inj in H; subst x|intros [H _]; apply loads_iff in H; congruence]. split; [apply loads_iff, E|]. intros s' H. apply Sch in H. destruct H as [H1 H2]. congruence.
Qed.
Print Assumptions c58_cell_read.
(** writing and reading a cell gives the value back, if it satisfies the schema *)
Theorem c58_cell_roundtrip : forall fr S fmt j, (forall sch, sc_ok S sch = true -> exists b kvs, sch = JBool b \/ sch = JObj kvs) ->
  good fr j -> (forall sch, imposed fr S fmt sch -> sc_valid S sch j = true) -> json_read fr S fmt (json_write j) = Ok j.
Proof.
  intros fr S fmt j HS G V. apply c58_cell_read; [exact HS|]. split; [|exact V]. apply loads_iff. apply c58_roundtrip; [left; reflexivity|exact G].
Qed.
Print Assumptions c58_cell_roundtrip.

(** ** Metadata files: the hypothesis of c55_round_trip about JSON holds *)
From Verif Require Import Files FilesSpec Props_Files.
Theorem c58_metadata_file : forall (env : fenv) fr j, good fr j ->
  let e := {| fe_isdir := fe_isdir env; fe_join := fe_join env; fe_get := fe_get env; fe_dumps := dumps indented; fe_loads := loads fr |} in
  fe_loads e (fe_dumps e j) = Some j.
Proof. intros env fr j G. apply c58_roundtrip; [right; reflexivity|exact G]. Qed.
Print Assumptions c58_metadata_file.

(** Not so: the schema false admits nothing, but is not imposed *)
Theorem c58_schema_false_refuted : exists S v j, sc_ok S (JBool false) = true /\ sc_valid S (JBool false) j = false
  /\ (forall sch, sc_ok S sch = true -> exists b kvs, sch = JBool b \/ sch = JObj kvs) /\ json_read (fun t => t) S (Some (lit "false")) v = Ok j.
Proof.
  exists {| sc_ok := fun s => match s with JBool _ => true | _ => false end; sc_valid := fun s _ => match s with JBool b => b | _ => true end |}, (lit "1"), (JInt 1).
  repeat split. intros sch H. destruct sch; try discriminate H. exists b, []. left. reflexivity.
Qed.
Print Assumptions c58_schema_false_refuted.
(** a str with a high and a low surrogate next to each other is read back as another str *)
Theorem c58_surrogates_refuted : loads (fun t => t) (dumps one_line (JStr [55357; 56832])) = Some (JStr [128512]) /\ dumps one_line (JStr [55357; 56832]) = dumps one_line (JStr [128512]).
Proof. split; vm_compute; reflexivity. Qed.
Print Assumptions c58_surrogates_refuted.
(** a repeated key loses a value without an error *)
Theorem c58_repeated_key_refuted : loads (fun t => t) (lit "{""a"": 1, ""b"": 2, ""a"": 3}") = Some (JObj [(lit "a", JInt 3); (lit "b", JInt 2)]).
Proof. vm_compute; reflexivity. Qed.
Print Assumptions c58_repeated_key_refuted.
Definition j0 : json := JObj [(lit "a", JList [JInt (-12); JNull; JBool true; JFloat (lit "1.5e-07")]); ([10; 34; 228; 128512], JObj []); ([], JStr [55357; 32; 56832])].
Example c58_nonvacuous : good (fun t => t) j0 /\ dumps one_line j0 = lit "{""a"": [-12, null, true, 1.5e-07], ""\n\""\u00e4\ud83d\ude00"": {}, """": ""\ud83d \ude00""}" /\ loads (fun t => t) (dumps indented j0) = Some j0.
Proof.
  split; [|split; vm_compute; reflexivity]. assert (Gs : forall s, forallb (fun c => c <? 1114112) s = true -> (fix np l := match l with u :: (v :: _) as r => negb (is_high u && is_low v) && np r | _ => true end) s = true -> good_str s).
  { intros s H1 H2. split; [apply Forall_forall; intros c Hc; rewrite forallb_forall in H1; specialize (H1 c Hc); lia|]. intros a u v b E [Hh Hl]. subst s. clear H1. induction a as [|x a IH].
    - cbn in H2. apply high_iff in Hh. apply low_iff in Hl. rewrite Hh, Hl in H2. discriminate H2.
    - apply IH. destruct a as [|y a]; cbn [app] in *; apply andb_prop in H2; apply H2. }
  assert (D : forall d, 48 <= d <= 57 -> digits [d]) by (intros d Hd; split; [discriminate|constructor; [exact Hd|constructor]]).
  apply g_obj; [repeat constructor; cbn; intuition discriminate|]. constructor; [split; [apply Gs; reflexivity|]|constructor; [split; [apply Gs; reflexivity|apply g_obj; constructor]|constructor; [split; [apply Gs; reflexivity|apply g_str, Gs; reflexivity]|constructor]]]. cbn [snd].
  apply g_list. constructor; [constructor|]. constructor; [constructor|]. constructor; [constructor|]. constructor; [|constructor]. apply g_float.
  right. split; [|reflexivity]. exists false, [49], (lit ".5"), (lit "e-07"). split; [split; [apply D; lia|intros Q; discriminate Q]|]. split; [right; exists [53]; split; [apply D; lia|reflexivity]|]. split; [|split; [discriminate|reflexivity]].
  right. exists (lit "e"), (lit "-"), (lit "07"). split; [auto|]. split; [auto|]. split; [|reflexivity]. split; [discriminate|]. repeat constructor; cbn; discriminate.
Qed.
