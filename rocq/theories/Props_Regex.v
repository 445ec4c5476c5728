(** C57: formats of strings.  den, regex_text, sound: RegexSpec.v.  alts and its text and meaning: RegexSyntax.v. *)
From Verif Require Import PyStr Dec DecProofs Basic Regex RegexSpec RegexProofs RegexProofs2 RegexProofs3 RegexSyntax RegexProofs4.

(** All of v, or all but a newline at the end, matches r. *)
Definition whole digit space word (r : regex) (v : pystr) : Prop :=
  exists w t, v = w ++ t /\ (t = [] \/ t = [10]) /\ den (fun c => digit c = true) (fun c => space c = true) (fun c => word c = true) r [] w t.
(** some text at the start of v matches r *)
Definition at_start digit space word (r : regex) (v : pystr) : Prop :=
  exists w t, v = w ++ t /\ den (fun c => digit c = true) (fun c => space c = true) (fun c => word c = true) r [] w t.

Lemma wrap_whole digit space word r v : re_match digit space word (RSeq r (RSeq REol REps)) v = true <-> whole digit space word r v.
Proof.
  rewrite re_match_spec. unfold whole. split.
  - intros (w & t & -> & (w1 & w2 & -> & H & (w3 & w4 & -> & (-> & E) & ->))). cbn [app] in *. rewrite app_nil_r. exists w1, t. auto.
  - intros (w & t & -> & E & H). exists w, t. split; [reflexivity|]. exists w, []. rewrite app_nil_r. split; [reflexivity|]. split; [exact H|]. exists [], []. rewrite !app_nil_r. split; [reflexivity|]. split; [split; [reflexivity|exact E]|reflexivity].
Qed.
Lemma regex_of f r : f <> [] -> re_compile f = POk r -> string_regex (Some f) = Some (Some (RSeq r (RSeq REol REps))).
Proof. intros N H. unfold string_regex. rewrite (compile_wrap f r H). destruct f; [contradiction|reflexivity]. Qed.

(** A string with a format is read as it is if it matches as a whole, and otherwise is a ValueError; f: any text that is a regular expression r by itself; *)
Theorem c57_format : forall digit space word f r v, f <> [] -> re_compile f = POk r ->
  (whole digit space word r v -> string_read digit space word (Some f) v = Some (Ok v)) /\
  (~ whole digit space word r v -> string_read digit space word (Some f) v = Some (Err ValueError)).
Proof.
  intros digit space word f r v N H. unfold string_read. rewrite (regex_of f r N H). cbn [option_map string_to_python]. rewrite <- wrap_whole. destruct (re_match digit space word (RSeq r (RSeq REol REps)) v); split; intros K; try reflexivity; [congruence|discriminate K].
Qed.
Print Assumptions c57_format.
(** and every regular expression has such a text. *)
Theorem c57_every_regex : forall digit space word r v, sound r ->
  (whole digit space word r v -> string_read digit space word (Some (regex_text r)) v = Some (Ok v)) /\
  (~ whole digit space word r v -> string_read digit space word (Some (regex_text r)) v = Some (Err ValueError)).
Proof.
  intros digit space word r v So. destruct (text_compiles (fun c => digit c = true) (fun c => space c = true) (fun c => word c = true) r So) as (r' & C & E).
  assert (X : whole digit space word r v <-> whole digit space word r' v) by (unfold whole; split; intros (w & t & -> & T & H); exists w, t; (split; [reflexivity|]); (split; [exact T|]); apply E; exact H).
  rewrite X. apply c57_format; [|exact C]. rewrite text_body. discriminate.
Qed.
Print Assumptions c57_every_regex.
(** Whatever is written in the usual notation - plain and escaped characters, dots, classes, sets, groups, quantifiers, alternatives, anchors - means what it stands for. *)
Theorem c57_notation : forall digit space word a v, alts_ok a -> alts_text a <> [] ->
  (whole digit space word (alts_regex a) v -> string_read digit space word (Some (alts_text a)) v = Some (Ok v)) /\
  (~ whole digit space word (alts_regex a) v -> string_read digit space word (Some (alts_text a)) v = Some (Err ValueError)).
Proof. intros digit space word a v OK NE. apply c57_format; [exact NE|apply notation_compiles; exact OK]. Qed.
Print Assumptions c57_notation.
Definition wordc (c : N) : bool := is_letter c || is_digit c || (c =? 95).
(** [A-Z.-]\w+-\d{2,4}(x|.)?\n*?$ *)
Example c57_notation_nonvacuous :
  let p c := Char (Plain c) in
  let a := One (Then (Leaf (Set_ false [MRange (Plain 65) (Plain 90); MChar (Plain 46)] true) None) (Then (Leaf (Class KWord false) (Some (Plus, false))) (Then (Leaf (p 45) None)
    (Then (Leaf (Class KDigit false) (Some (Between 2 4, false))) (Then (Group true (Or (Then (Leaf (p 120) None) Done) (One (Then (Leaf Dot None) Done))) (Some (Opt, false)))
    (Then (Leaf (Char (Named 110 10)) (Some (Star, true))) (Then Eol Done))))))) in
  alts_ok a /\ alts_text a = lit "[A-Z.-]\w+-\d{2,4}(x|.)?\n*?$" /\
  string_read is_digit is_space wordc (Some (alts_text a)) (lit "Abc-123x") = Some (Ok (lit "Abc-123x")) /\ string_read is_digit is_space wordc (Some (alts_text a)) (lit "Abc-1") = Some (Err ValueError).
Proof.
  cbv zeta. split; [|split; [reflexivity|split; reflexivity]]. cbn. repeat split; try lia; try tauto; try (intros H; lia).
  intros m [<-|[<-|[]]]; cbn; lia.
Qed.
(** An expression without ^ and $ matches as a whole whatever is in its language, and nothing else (but a newline at the end). *)
Fixpoint anchor_free (r : regex) : Prop := match r with RBol | REol => False | RSeq a b | RAlt a b => anchor_free a /\ anchor_free b | RRep a _ _ => anchor_free a | _ => True end.
Definition in_language digit space word (r : regex) (w : pystr) : Prop := den (fun c => digit c = true) (fun c => space c = true) (fun c => word c = true) r [] w [].
Lemma free_context ds sp wd : forall r, anchor_free r -> forall b w a b' a', den ds sp wd r b w a -> den ds sp wd r b' w a'.
Proof.
  induction r as [neg l| |r1 IH1 r2 IH2|r1 IH1 r2 IH2|r IH lo more| |]; cbn [anchor_free den]; intros F b w a b' a' H; try assumption; try contradiction.
  - destruct F as [F1 F2]. destruct H as (w1 & w2 & -> & H1 & H2). exists w1, w2. split; [reflexivity|]. split; [exact (IH1 F1 _ _ _ _ _ H1)|exact (IH2 F2 _ _ _ _ _ H2)].
  - destruct F as [F1 F2]. destruct H as [H|H]; [left; exact (IH1 F1 _ _ _ _ _ H)|right; exact (IH2 F2 _ _ _ _ _ H)].
  - destruct H as (n & L & H). exists n. split; [exact L|]. clear L. revert b w a b' a' H. induction (lo + n)%nat as [|m IHm]; cbn [times]; intros b w a b' a' H; [exact H|]. destruct H as (w1 & w2 & -> & H1 & H2). exists w1, w2. split; [reflexivity|]. split; [exact (IH F _ _ _ _ _ H1)|exact (IHm _ _ _ _ _ H2)].
Qed.
Theorem c57_language : forall digit space word r v, sound r -> anchor_free r ->
  (string_read digit space word (Some (regex_text r)) v = Some (Ok v) <-> in_language digit space word r v \/ exists w, v = w ++ [10] /\ in_language digit space word r w).
Proof.
  intros digit space word r v So F. pose proof (c57_every_regex digit space word r v So) as [A B].
  assert (X : whole digit space word r v <-> in_language digit space word r v \/ exists w, v = w ++ [10] /\ in_language digit space word r w).
  { unfold whole, in_language. split.
    - intros (w & t & -> & [-> | ->] & H); [left; rewrite app_nil_r; exact H|right; exists w; split; [reflexivity|]; exact (free_context _ _ _ r F _ _ _ _ _ H)].
    - intros [H|(w & -> & H)]; [exists v, []; rewrite app_nil_r; auto|]. exists w, [10]. split; [reflexivity|]. split; [auto|]. exact (free_context _ _ _ r F _ _ _ _ _ H). }
  rewrite <- X. split; [|exact A]. intros R. 
  destruct (re_match digit space word (RSeq r (RSeq REol REps)) v) eqn:M; [apply wrap_whole; exact M|]. rewrite B in R; [discriminate R|]. intros K. apply wrap_whole in K. congruence.
Qed.
Print Assumptions c57_language.
(** Without a format everything is accepted; and so it is with one that is not a regular expression. *)
Theorem c57_no_format : forall digit space word v, string_read digit space word None v = Some (Ok v) /\ string_read digit space word (Some []) v = Some (Ok v) /\
  forall f, f <> [] -> re_compile (lit "(" ++ f ++ lit ")$") = PBad -> string_read digit space word (Some f) v = Some (Ok v).
Proof. intros digit space word v. split; [reflexivity|]. split; [reflexivity|]. intros f N H. unfold string_read, string_regex. rewrite H. destruct f; [contradiction|reflexivity]. Qed.
Print Assumptions c57_no_format.
(** NMTOKEN and anyURI check the format first. *)
Theorem c57_nmtoken : forall digit space word f r v x, f <> [] -> re_compile f = POk r ->
  (nmtoken_read digit space word (Some f) v = Some (Ok x) <-> x = v /\ whole digit space word r v /\ forall c, In c v -> word c = true \/ In c (lit ".:-")).
Proof.
  intros digit space word f r v x N H. unfold nmtoken_read. rewrite (regex_of f r N H). cbn [option_map nmtoken_to_python string_to_python]. rewrite <- wrap_whole. unfold nmtoken_to_python. cbn [string_to_python]. destruct (re_match digit space word (RSeq r (RSeq REol REps)) v); cbn [bind].
  - destruct (forallb (fun c => word c || char_mem c (lit ".:-")) v) eqn:E.
    + rewrite forallb_forall in E. split; [intros K; injection K as <-; split; [reflexivity|]; split; [reflexivity|]; intros c I; specialize (E c I); apply orb_true_iff in E; destruct E as [E|E]; [left; exact E|right; apply char_mem_In; exact E]|]. intros (-> & _). reflexivity.
    + split; [discriminate|]. intros (_ & _ & K). exfalso. apply not_true_iff_false in E. apply E. apply forallb_forall. intros c I. apply orb_true_iff. destruct (K c I) as [K1|K1]; [left; exact K1|right; apply char_mem_In; exact K1].
  - split; [discriminate|]. intros (_ & K & _). discriminate K.
Qed.
Print Assumptions c57_nmtoken.
Theorem c57_uri : forall U (uri : pystr -> res U) digit space word f r v, f <> [] -> re_compile f = POk r ->
  (whole digit space word r v -> uri_read digit space word uri (Some f) v = Some (uri v)) /\ (~ whole digit space word r v -> uri_read digit space word uri (Some f) v = Some (Err ValueError)).
Proof.
  intros U uri digit space word f r v N H. unfold uri_read. rewrite (regex_of f r N H). cbn [option_map string_to_python]. rewrite <- wrap_whole. destruct (re_match digit space word (RSeq r (RSeq REol REps)) v); split; intros K; try reflexivity; [congruence|discriminate K].
Qed.
Print Assumptions c57_uri.
(** A duration needs to match at its start only. *)
Theorem c57_duration : forall D (iso : pystr -> res D) digit space word f r v, f <> [] -> re_compile f = POk r ->
  (at_start digit space word r v -> duration_read digit space word iso (Some f) v = Some (iso v)) /\ (~ at_start digit space word r v -> duration_read digit space word iso (Some f) v = Some (Err ValueError)).
Proof.
  intros D iso digit space word f r v N H. unfold at_start. rewrite <- re_match_spec. unfold duration_read. rewrite H. destruct f; [contradiction|]. destruct (re_match digit space word r v); split; intros K; try reflexivity; [congruence|discriminate K].
Qed.
Print Assumptions c57_duration.
(** Without a format, or with the empty one, the text of a duration is not matched with anything. *)
Theorem c57_duration_no_format : forall D (iso : pystr -> res D) digit space word fmt v, fmt = None \/ fmt = Some [] -> duration_read digit space word iso fmt v = Some (iso v).
Proof. intros D iso digit space word fmt v [-> | ->]; reflexivity. Qed.
Print Assumptions c57_duration_no_format.

(** Examples *)
Definition r0 : regex := RAlt (RRep (RSet false [CRange 97 122; CClass KDigit false]) 1 None) (RSeq (RSet true [CRange 48 57]) (RRep (RSet false [CRange 45 45]) 2 (Some 1%nat))).
Example c57_nonvacuous : sound r0 /\ anchor_free r0 /\ regex_text r0 = lit "(?:(?:(?:[a-z\d]){1,})|(?:(?:[^0-9])(?:(?:[\--\-]){2,3})))" /\
  in_language is_digit is_space wordc r0 (lit "x---") /\ re_compile (lit "[a-z\d]+|\D-{2,3}") = POk (RAlt (RSeq (RRep (RSet false [CRange 97 122; CClass KDigit false]) 1 None) REps) (RSeq (RSet false [CClass KDigit true]) (RSeq (RRep (RSet false [CRange 45 45]) 2 (Some 1%nat)) REps))) /\
  string_read is_digit is_space wordc (Some (lit "a|bc")) (lit "bc") = Some (Ok (lit "bc")) /\ string_read is_digit is_space wordc (Some (lit "a|bc")) (lit "ac") = Some (Err ValueError).
Proof.
  split; [|split; [cbn; tauto|split; [vm_compute; reflexivity|split; [|split; [vm_compute; reflexivity|split; vm_compute; reflexivity]]]]].
  - cbn [sound r0]. repeat split; try discriminate; intros lo hi H; cbn [In] in H; intuition (try discriminate); match goal with E : CRange _ _ = CRange _ _ |- _ => injection E as <- <-; lia end.
  - right. exists (lit "x"), (lit "---"). split; [reflexivity|]. split.
    + exists 120. split; [reflexivity|]. cbn [set_chars]. intros i [<-|[]]. cbn [item_chars]. lia.
    + exists 1%nat. split; [lia|]. cbn [times Nat.add]. assert (X : forall b t, den (fun c => is_digit c = true) (fun c => is_space c = true) (fun c => wordc c = true) (RSet false [CRange 45 45]) b (lit "-") t) by (intros b t; exists 45; split; [reflexivity|]; exists (CRange 45 45); split; [left; reflexivity|cbn; lia]).
      exists (lit "-"), (lit "--"). split; [reflexivity|]. split; [apply X|]. exists (lit "-"), (lit "-"). split; [reflexivity|]. split; [apply X|]. exists (lit "-"), []. split; [reflexivity|]. split; [apply X|]. reflexivity.
Qed.
(** *** What does not hold *)
(** a newline at the end is not part of the check *)
Theorem c57_newline_refuted : string_read is_digit is_space wordc (Some (lit "\d+")) (lit "12" ++ [10]) = Some (Ok (lit "12" ++ [10])).
Proof. vm_compute. reflexivity. Qed.
Print Assumptions c57_newline_refuted.
(** a back reference is shifted by the group around the format: the format is dropped, and everything accepted *)
Theorem c57_backref_refuted : forall v, string_read is_digit is_space wordc (Some (lit "(a|b)\1")) v = Some (Ok v).
Proof. intros v. apply c57_no_format; [discriminate|vm_compute; reflexivity]. Qed.
Print Assumptions c57_backref_refuted.
(** a text that is not a regular expression can become one *)
Theorem c57_brackets_refuted : re_compile (lit "a)|(b") = PBad /\ string_read is_digit is_space wordc (Some (lit "a)|(b")) (lit "ax") = Some (Ok (lit "ax")) /\ string_read is_digit is_space wordc (Some (lit "a)|(b")) (lit "c") = Some (Err ValueError).
Proof. repeat split; vm_compute; reflexivity. Qed.
Print Assumptions c57_brackets_refuted.
(** the format of a normalizedString has no effect, and that of a duration accepts longer texts *)
Theorem c57_normalized_refuted : forall f r v, f <> [] -> re_compile f = POk r -> normalized_read (Some f) v = Some (Ok (norm_to_python v)).
Proof. intros f r v N H. unfold normalized_read. rewrite (regex_of f r N H). reflexivity. Qed.
Print Assumptions c57_normalized_refuted.
Theorem c57_duration_refuted : forall D (iso : pystr -> res D), duration_read is_digit is_space wordc iso (Some (lit "P\dD")) (lit "P1DT2H") = Some (iso (lit "P1DT2H")).
Proof. intros D iso. unfold duration_read. assert (E : exists r, re_compile (lit "P\dD") = POk r /\ re_match is_digit is_space wordc r (lit "P1DT2H") = true) by (eexists; split; [vm_compute; reflexivity|vm_compute; reflexivity]). destruct E as (r & E1 & E2). change (lit "P\dD") with (80 :: lit "\dD") at 1. cbv iota. change (80 :: lit "\dD") with (lit "P\dD"). rewrite E1, E2. reflexivity. Qed.
Print Assumptions c57_duration_refuted.
