(** C58: what is written is a text of the value. *)
From Verif Require Import PyStr Dec DecProofs Dsv Json JsonText JsonTextSpec JsonTextProofs JsonTextProofs2.
From Coq Require Import ZifyBool ZifyN ZifyNat.

(** ** strings *)
Lemma hexdigit_hex n : n < 16 -> hex (hexdigit n) n.
Proof. intros H. unfold hexdigit, hex. destruct (N.ltb_spec n 10); lia. Qed.
Lemma u_escape_text n : n < 65536 -> u_text (u_escape n) n.
Proof.
  intros H. unfold u_escape, u_text. assert (M : forall x, x mod 16 < 16) by (intros x; apply N.mod_lt; lia). do 4 eexists. exists (n / 4096 mod 16), (n / 256 mod 16), (n / 16 mod 16), (n mod 16). split; [reflexivity|]. repeat (split; [apply hexdigit_hex, M|]).
  assert (A : n / 256 = n / 16 / 16) by (rewrite N.div_div by lia; reflexivity). assert (B : n / 4096 = n / 256 / 16) by (rewrite N.div_div by lia; reflexivity).
  assert (C : n / 4096 < 16) by (apply N.div_lt_upper_bound; lia). rewrite (N.mod_small (n / 4096)) by exact C.
  pose proof (N.div_mod n 16 ltac:(lia)). pose proof (N.div_mod (n / 16) 16 ltac:(lia)). pose proof (N.div_mod (n / 256) 16 ltac:(lia)). rewrite <- A in *. rewrite <- B in *. lia.
Qed.
Lemma u_text_fun t u v : u_text t u -> u_text t v -> u = v.
Proof. intros H1 H2. apply u_text_shape in H1. destruct H1 as (a & b & c & d & -> & E). apply hex4_iff in H2. congruence. Qed.
Lemma app_same {A} (l r l' r' : list A) : length l = length l' -> l ++ r = l' ++ r' -> l = l'.
Proof. revert l'. induction l as [|x l IH]; intros [|y l'] H E; try discriminate H; [reflexivity|]. cbn in E. injection E as -> E. f_equal. apply IH; [injection H as H; exact H|exact E]. Qed.
Lemma u_escape_len n : length (u_escape n) = 6%nat. Proof. reflexivity. Qed.
Opaque u_escape.
(** a text that begins with an escape of a low surrogate was written for a low surrogate *)
Lemma escape_low s t2 v t' : Forall (fun c => c < 1114112) s -> flat_map escape_char s = t2 ++ t' -> u_text t2 v -> low v -> exists r, s = v :: r.
Proof.
  intros Hs E Hu Hl. pose proof (u_text_shape _ _ Hu) as (a & b & c & d & -> & _). destruct s as [|x s]; [discriminate E|]. inversion Hs as [|? ? Hx _]; subst. exists s. f_equal. cbn [flat_map] in E. revert E. unfold escape_char.
  destruct (N.eqb_spec x 92) as [->|]; [intros E; discriminate E|]. destruct (N.eqb_spec x 34) as [->|]; [intros E; discriminate E|]. destruct (N.eqb_spec x 8) as [->|]; [intros E; discriminate E|]. destruct (N.eqb_spec x 12) as [->|]; [intros E; discriminate E|].
  destruct (N.eqb_spec x 10) as [->|]; [intros E; discriminate E|]. destruct (N.eqb_spec x 13) as [->|]; [intros E; discriminate E|]. destruct (N.eqb_spec x 9) as [->|]; [intros E; discriminate E|].
  destruct ((32 <=? x) && (x <=? 126)); [intros E; cbn in E; injection E as -> _; congruence|].
  destruct (N.ltb_spec x 65536) as [Hlt|Hge].
  - intros E. pose proof (u_escape_text x Hlt) as T. apply app_same in E; [|apply u_escape_len]. rewrite E in T. exact (u_text_fun _ _ _ T Hu).
  - intros E. exfalso. set (h := 55296 + (x - 65536) / 1024 mod 1024) in *. assert (Hh : high h) by (unfold high, h; pose proof (N.mod_lt ((x - 65536) / 1024) 1024 ltac:(lia)); lia).
    pose proof (u_escape_text h ltac:(unfold high in Hh; lia)) as T. rewrite <- app_assoc in E. apply app_same in E; [|apply u_escape_len]. rewrite E in T. pose proof (u_text_fun _ _ _ T Hu). unfold high, low in *. lia.
Qed.
Theorem dump_str_text s : good_str s -> str_text (flat_map escape_char s) s.
Proof.
  induction s as [|x s IH]; intros [Hs Hp]; [constructor|]. inversion Hs as [|? ? Hx Hs']; subst. assert (IHs : str_text (flat_map escape_char s) s) by (apply IH; split; [exact Hs'|intros a u v b E; apply (Hp (x :: a) u v b); rewrite E; reflexivity]). clear IH. rename IHs into IH. cbn [flat_map]. unfold escape_char at 1.
  destruct (N.eqb_spec x 92) as [->|N92]; [apply s_escape; [cbn; auto 10|exact IH]|]. destruct (N.eqb_spec x 34) as [->|N34]; [apply s_escape; [cbn; auto 10|exact IH]|]. destruct (N.eqb_spec x 8) as [->|]; [apply s_escape; [cbn; auto 10|exact IH]|]. destruct (N.eqb_spec x 12) as [->|]; [apply s_escape; [cbn; auto 10|exact IH]|].
  destruct (N.eqb_spec x 10) as [->|]; [apply s_escape; [cbn; auto 10|exact IH]|]. destruct (N.eqb_spec x 13) as [->|]; [apply s_escape; [cbn; auto 10|exact IH]|]. destruct (N.eqb_spec x 9) as [->|]; [apply s_escape; [cbn; auto 10|exact IH]|].
  destruct ((32 <=? x) && (x <=? 126)) eqn:E; [apply s_plain; [lia|assumption|assumption|exact IH]|].
  destruct (N.ltb_spec x 65536) as [Hlt|Hge].
  - apply s_u; [apply u_escape_text, Hlt| |exact IH]. intros [Hh (t2 & v & t' & E2 & Hu & Hl)]. destruct (escape_low s t2 v t' Hs' E2 Hu Hl) as [r ->]. exact (Hp [] x v r eq_refl (conj Hh Hl)).
  - rewrite <- app_assoc. set (h := 55296 + (x - 65536) / 1024 mod 1024). set (l := 56320 + (x - 65536) mod 1024).
    assert (Hq : (x - 65536) / 1024 < 1024) by (apply N.div_lt_upper_bound; lia). pose proof (N.mod_lt (x - 65536) 1024 ltac:(lia)) as Hm. pose proof (N.div_mod (x - 65536) 1024 ltac:(lia)) as Hd. assert (Hh' : h = 55296 + (x - 65536) / 1024) by (unfold h; rewrite N.mod_small by exact Hq; reflexivity).
    replace (x :: s) with (65536 + (h - 55296) * 1024 + (l - 56320) :: s) by (f_equal; unfold l; lia).
    apply s_pair; [apply u_escape_text; lia|unfold high; lia|apply u_escape_text; unfold l; lia|unfold low, l; lia|exact IH].
Qed.

(** ** numbers *)
Section Dump.
Variable fr : pystr -> pystr.
Lemma digits_of_natural n : natural (digits_of n) /\ decimal_value (digits_of n) = Z.of_N n.
Proof.
  destruct (digits_of_spec n) as (V & A & Ne & L). assert (F : Forall (fun c => 48 <= c <= 57) (digits_of n)) by (apply Forall_forall; intros c Hc; unfold all_digits in A; rewrite forallb_forall in A; apply is_digit_iff, A, Hc).
  split; [split; [split; assumption|]|rewrite <- value_digits by exact F; rewrite V; reflexivity]. intros H0. destruct (N.eq_dec n 0) as [->|N0]; [reflexivity|]. destruct (digits_of n) as [|c r] eqn:E; [congruence|]. exfalso. exact (L N0 c r eq_refl H0).
Qed.
Lemma dump_int_text z : text fr (int_str z) (JInt z).
Proof.
  destruct z as [|p|p].
  - destruct (digits_of_natural 0) as [H1 H2]. pose proof (t_int fr false _ H1) as T. rewrite H2 in T. exact T.
  - destruct (digits_of_natural (Npos p)) as [H1 H2]. pose proof (t_int fr false _ H1) as T. rewrite H2 in T. exact T.
  - destruct (digits_of_natural (Npos p)) as [H1 H2]. pose proof (t_int fr true _ H1) as T. rewrite H2 in T. exact T.
Qed.
Lemma float_text_head t : float_text t -> exists c r, t = c :: r /\ (48 <= c <= 57 \/ (c = 45 /\ exists d r', r = d :: r' /\ 48 <= d <= 57)).
Proof.
  intros (neg & ds & fp & ep & Hn & _ & _ & _ & ->). destruct (digits_ne ds (proj1 Hn)) as (d & r & -> & Hd). destruct neg; cbn [minus app].
  - change (lit "-") with [45]. cbn [app]. do 2 eexists. split; [reflexivity|]. right. split; [reflexivity|]. do 2 eexists. split; [reflexivity|exact Hd].
  - do 2 eexists. split; [reflexivity|]. left. exact Hd.
Qed.
Lemma dump_float_text r : float_token fr r -> text fr (dump_float r) (JFloat r).
Proof.
  intros [H|[H E]]; [destruct H as [<-|[<-|[<-|[]]]]; constructor|]. assert (D : dump_float r = r).
  { apply float_text_head in H. destruct H as (c & r' & -> & Hc). unfold dump_float.
    destruct (str_eqb (c :: r') (lit "nan")) eqn:E1; [apply str_eqb_eq in E1; exfalso; change (lit "nan") with [110; 97; 110] in E1; injection E1 as -> _; lia|].
    destruct (str_eqb (c :: r') (lit "inf")) eqn:E2; [apply str_eqb_eq in E2; exfalso; change (lit "inf") with [105; 110; 102] in E2; injection E2 as -> _; lia|].
    destruct (str_eqb (c :: r') (lit "-inf")) eqn:E3; [|reflexivity]. apply str_eqb_eq in E3. exfalso. change (lit "-inf") with [45; 105; 110; 102] in E3. injection E3 as -> ->. destruct Hc as [Hc|[_ (d & r'' & E4 & Hd)]]; [lia|]. injection E4 as <- _. lia. }
  rewrite D. pose proof (t_float fr r H) as T. rewrite E in T. exact T.
Qed.
(** ** lists and objects *)
Variable st : style.
Definition style_ok : Prop := (exists a b, ws a /\ ws b /\ st_item st = a ++ lit "," ++ b) /\ (exists a b, ws a /\ ws b /\ st_key st = a ++ lit ":" ++ b).
Lemma newline_ws n : ws (newline st n).
Proof. unfold newline. destruct (st_indent st) as [k|]; [|constructor]. constructor; [auto|]. apply Forall_forall. intros c Hc. apply repeat_spec in Hc. auto. Qed.
Lemma join2 (sep x : pystr) (l : list pystr) : l <> [] -> join sep (x :: l) = x ++ sep ++ join sep l.
Proof. destruct l; [congruence|reflexivity]. Qed.
Lemma join_items a b d l w1 w2 : ws a -> ws b -> ws w1 -> ws w2 -> l <> [] -> Forall (fun x => text fr (d x) x) l -> items fr (w1 ++ join (a ++ lit "," ++ b) (map d l) ++ w2) l.
Proof.
  intros Ha Hb Hw1 Hw2 Hne H. revert w1 Hw1 Hne. induction H as [|x l Hx H IH]; intros w1 Hw1 Hne; [congruence|]. destruct l as [|y l]; [cbn [map join]; apply i_one; assumption|]. change (map d (x :: y :: l)) with (d x :: map d (y :: l)). rewrite join2 by discriminate.
  replace (w1 ++ (d x ++ (a ++ lit "," ++ b) ++ join (a ++ lit "," ++ b) (map d (y :: l))) ++ w2) with (w1 ++ d x ++ a ++ lit "," ++ (b ++ join (a ++ lit "," ++ b) (map d (y :: l)) ++ w2)) by (rewrite <- !app_assoc; reflexivity).
  apply i_more; try assumption. apply IH; [exact Hb|discriminate].
Qed.
Lemma join_pairs a b c e d kvs w1 w2 : ws a -> ws b -> ws c -> ws e -> ws w1 -> ws w2 -> kvs <> [] ->
  Forall (fun kv => good_str (fst kv) /\ text fr (d (snd kv)) (snd kv)) kvs ->
  pairs fr (w1 ++ join (a ++ lit "," ++ b) (map (fun kv => dump_str (fst kv) ++ (c ++ lit ":" ++ e) ++ d (snd kv)) kvs) ++ w2) kvs.
Proof.
  intros Ha Hb Hc He Hw1 Hw2 Hne H. revert w1 Hw1 Hne. induction H as [|[k x] kvs [Hk Hx] H IH]; intros w1 Hw1 Hne; [congruence|]. cbn [fst snd] in *. apply dump_str_text in Hk. set (f := fun kv : pystr * json => dump_str (fst kv) ++ (c ++ lit ":" ++ e) ++ d (snd kv)) in *.
  destruct kvs as [|y kvs].
  - cbn [map join]. unfold f, dump_str. cbn [fst snd]. replace (w1 ++ (([34] ++ flat_map escape_char k ++ [34]) ++ (c ++ lit ":" ++ e) ++ d x) ++ w2) with (w1 ++ [34] ++ flat_map escape_char k ++ [34] ++ c ++ lit ":" ++ e ++ d x ++ w2) by (rewrite <- !app_assoc; reflexivity). apply p_one; assumption.
  - change (map f ((k, x) :: y :: kvs)) with (f (k, x) :: map f (y :: kvs)). rewrite join2 by discriminate. unfold f at 1, dump_str. cbn [fst snd].
    replace (w1 ++ ((([34] ++ flat_map escape_char k ++ [34]) ++ (c ++ lit ":" ++ e) ++ d x) ++ (a ++ lit "," ++ b) ++ join (a ++ lit "," ++ b) (map f (y :: kvs))) ++ w2)
      with (w1 ++ [34] ++ flat_map escape_char k ++ [34] ++ c ++ lit ":" ++ e ++ d x ++ a ++ lit "," ++ (b ++ join (a ++ lit "," ++ b) (map f (y :: kvs)) ++ w2)) by (rewrite <- !app_assoc; reflexivity).
    apply p_more; try assumption. apply IH; [exact Hb|discriminate].
Qed.
Lemma last_wins_self kvs : NoDup (map fst kvs) -> last_wins kvs kvs.
Proof. intros H. pose proof (last_wins_all kvs) as L. rewrite (DsvProofs4.dset_all_new str_eqb str_eqb_eq) in L by exact H. exact L. Qed.
Theorem dump_text : style_ok -> forall j, good fr j -> forall level, text fr (dump st level j) j.
Proof.
  intros [(a & b & Ha & Hb & Ei) (c & e & Hc & He & Ek)]. induction j as [| | | | |l IH|kvs IH] using json_ind'; intros G level; inversion G; subst.
  - constructor.
  - destruct b0; constructor.
  - apply dump_int_text.
  - apply dump_float_text. assumption.
  - apply t_str, dump_str_text. assumption.
  - destruct l as [|x l]; [exact (t_list0 fr [] (Forall_nil _))|].
    assert (D : dump st level (JList (x :: l)) = lit "[" ++ (newline st (S level) ++ join ((a ++ lit "," ++ b) ++ newline st (S level)) (map (fun x => dump st (S level) x) (x :: l)) ++ newline st level) ++ lit "]") by (cbn [dump]; rewrite Ei; rewrite <- !app_assoc; reflexivity).
    rewrite D. apply t_list. rewrite <- !app_assoc. apply join_items; try assumption; try apply newline_ws; [apply Forall_app; split; [exact Hb|apply newline_ws]|discriminate|].
    apply Forall_forall. intros y Hy. rewrite Forall_forall in IH. match goal with H : Forall (good fr) _ |- _ => rewrite Forall_forall in H; apply IH; [exact Hy|apply H, Hy] end.
  - destruct kvs as [|x kvs]; [exact (t_obj0 fr [] (Forall_nil _))|].
    assert (D : dump st level (JObj (x :: kvs)) = lit "{" ++ (newline st (S level) ++ join ((a ++ lit "," ++ b) ++ newline st (S level)) (map (fun kv => dump_str (fst kv) ++ (c ++ lit ":" ++ e) ++ dump st (S level) (snd kv)) (x :: kvs)) ++ newline st level) ++ lit "}") by (cbn [dump]; rewrite Ei, Ek; rewrite <- !app_assoc; reflexivity).
    rewrite D. eapply t_obj; [|apply last_wins_self; assumption]. rewrite <- (app_assoc a). rewrite <- (app_assoc (lit ",")). apply join_pairs; try assumption; try apply newline_ws; [apply Forall_app; split; [exact Hb|apply newline_ws]|discriminate|].
    apply Forall_forall. intros y Hy. rewrite Forall_forall in IH. match goal with H : Forall (fun kv => good_str (fst kv) /\ good fr (snd kv)) _ |- _ => rewrite Forall_forall in H; specialize (H y Hy); destruct H as [H1 H2]; split; [exact H1|apply IH; [exact Hy|exact H2]] end.
Qed.
End Dump.
Lemma one_line_ok : style_ok one_line.
Proof. split; exists [], [32]; (split; [constructor|]; split; [repeat constructor; auto|reflexivity]). Qed.
Lemma indented_ok : style_ok indented.
Proof. split; [exists [], []|exists [], [32]]; (split; [constructor|]; split; [repeat constructor; auto|reflexivity]). Qed.
