(** Lines, cells and choices. *)
From Verif Require Import PyStr Dec Dsv Json Names NamesProofs Column Regex RegexSpec RegexProofs Frictionless Expand Props_Expand Markdown MarkdownSpec.

(** *** Splitting at one character *)
Lemma split1_app c a b : split [c] (a ++ c :: b) = split [c] a ++ split [c] b.
Proof.
  unfold split. assert (H : forall cur, split_aux [c] cur (a ++ c :: b) 0 = split_aux [c] cur a 0 ++ split_aux [c] [] b 0); [|apply H]. induction a as [|x a IH]; intros cur.
  - cbn [app split_aux startswith List.length Nat.sub]. rewrite N.eqb_refl. reflexivity.
  - cbn [app split_aux startswith List.length Nat.sub]. rewrite andb_true_r. destruct (c =? x); [rewrite IH; reflexivity|apply IH].
Qed.
Lemma split1_none c s : ~ In c s -> split [c] s = [s].
Proof. intros H. unfold split. rewrite <- (app_nil_r s) at 1. rewrite split_aux_nosep by exact H. reflexivity. Qed.
Lemma split1_nonempty c s : split [c] s <> [].
Proof. apply split_aux_nonempty. Qed.
Lemma lines_app a b : lines_of (a ++ LF :: b) = lines_of a ++ lines_of b.
Proof. apply split1_app. Qed.
Lemma lines_one s : one_line_text s -> lines_of s = [s].
Proof. apply split1_none. Qed.
Lemma lines_join bs : bs <> [] -> lines_of (join [LF] bs) = concat (map lines_of bs).
Proof.
  induction bs as [|x [|y bs] IH]; [congruence| |]; intros _; [cbn [join map concat]; rewrite app_nil_r; reflexivity|].
  change (join [LF] (x :: y :: bs)) with (x ++ LF :: join [LF] (y :: bs)). rewrite lines_app, IH by discriminate. reflexivity.
Qed.

(** *** Cell texts *)
Lemma cell_app a b : cell_text (a ++ b) <-> cell_text a /\ cell_text b.
Proof. unfold cell_text. rewrite !in_app_iff. tauto. Qed.
Lemma cell_bool s : forallb (fun c => negb (c =? LF) && negb (c =? 124)) s = true -> cell_text s.
Proof. intros H. rewrite forallb_forall in H. split; intros I; specialize (H _ I); discriminate H. Qed.
Lemma cell_nil : cell_text [].
Proof. split; intros []. Qed.
Lemma cell_concat l : Forall cell_text l -> cell_text (concat l).
Proof. induction 1 as [|x l H _ IH]; [apply cell_nil|]. cbn [concat]. apply cell_app. split; assumption. Qed.
Lemma cell_join sep l : cell_text sep -> Forall cell_text l -> cell_text (join sep l).
Proof.
  intros S. induction 1 as [|x l H F IH]; [apply cell_nil|]. destruct l as [|y l]; [exact H|]. change (join sep (x :: y :: l)) with (x ++ sep ++ join sep (y :: l)).
  apply cell_app. split; [exact H|]. apply cell_app. split; assumption.
Qed.
Lemma row3_split a b c : cell_text a -> cell_text b -> cell_text c -> split (lit "|") (join (lit " | ") [a; b; c]) = row3 a b c.
Proof.
  intros [_ A] [_ B] [_ C]. assert (E : join (lit " | ") [a; b; c] = (a ++ lit " ") ++ 124 :: (lit " " ++ b ++ lit " ") ++ 124 :: lit " " ++ c).
  { change (join (lit " | ") [a; b; c]) with (a ++ lit " | " ++ b ++ lit " | " ++ c). rewrite <- !app_assoc. reflexivity. }
  rewrite E. change (lit "|") with [124]. rewrite !split1_app, !split1_none; [reflexivity| | |]; rewrite ?in_app_iff; cbn; intuition discriminate.
Qed.
Lemma row2_split a b : cell_text a -> cell_text b -> split (lit "|") (a ++ lit " | " ++ b) = row2 a b.
Proof.
  intros [_ A] [_ B]. assert (E : a ++ lit " | " ++ b = (a ++ lit " ") ++ 124 :: lit " " ++ b) by (rewrite <- !app_assoc; reflexivity).
  rewrite E. change (lit "|") with [124]. rewrite split1_app, !split1_none; [reflexivity| |]; rewrite ?in_app_iff; cbn; intuition discriminate.
Qed.

(** *** Choices *)
Section Choices.
Variables space word : N -> bool.
Hypothesis space_bar : space 124 = false.
Hypothesis word_bar : word 124 = false.
Let den := RegexSpec.den (fun _ => false = true) (fun c => space c = true) (fun c => word c = true).
Definition wordchar (c : N) : Prop := word c = true \/ space c = true.
Lemma den_char b w t : den (RSet false [CClass KWord false; CClass KSpace false]) b w t <-> exists c, w = [c] /\ wordchar c.
Proof.
  unfold den. cbn [RegexSpec.den set_chars]. split; intros (c & -> & H); exists c; (split; [reflexivity|]).
  - destruct H as (i & [<-|[<-|[]]] & H); [left|right]; exact H.
  - destruct H as [H|H]; [exists (CClass KWord false)|exists (CClass KSpace false)]; (split; [cbn; tauto|exact H]).
Qed.
Lemma times_char n : forall b w t, times (den (RSet false [CClass KWord false; CClass KSpace false])) n b w t <-> length w = n /\ Forall wordchar w.
Proof.
  induction n as [|n IH]; intros b w t; cbn [times].
  - split; [intros ->; split; [reflexivity|constructor]|]. intros [H _]. destruct w; [reflexivity|discriminate].
  - split.
    + intros (w1 & w2 & -> & H & T). apply den_char in H. destruct H as (c & -> & H). apply IH in T. destruct T as [<- T]. split; [reflexivity|constructor; assumption].
    + intros [H F]. destruct w as [|c w]; [discriminate|]. inversion F; subst. exists [c], w. split; [reflexivity|]. split; [apply den_char; exists c; auto|]. apply IH. split; [injection H as H; exact H|assumption].
Qed.
Lemma den_chars b w t : den choice_chars b w t <-> w <> [] /\ Forall wordchar w.
Proof.
  unfold choice_chars. change (den (RRep ?r 1 None) b w t) with (exists n, True /\ times (den r) (1 + n) b w t). split.
  - intros (n & _ & T). apply times_char in T. destruct T as [L F]. split; [intros ->; discriminate|exact F].
  - intros [N F]. destruct w as [|c w]; [congruence|]. exists (length w). split; [exact I|]. apply times_char. split; [reflexivity|exact F].
Qed.
Definition good (w : pystr) : Prop := w <> [] /\ Forall wordchar w.
Lemma times_tail n : forall b w t, times (den (RSeq (RSet false [CRange 124 124]) choice_chars)) n b w t <-> exists ws, length ws = n /\ w = concat (map (cons 124) ws) /\ Forall good ws.
Proof.
  induction n as [|n IH]; intros b w t; cbn [times].
  - split; [intros ->; exists []; repeat split; constructor|]. intros (ws & L & -> & _). destruct ws; [reflexivity|discriminate].
  - split.
    + intros (w1 & w2 & -> & H & T). apply IH in T. destruct T as (ws & <- & -> & F).
      change (den (RSeq ?a ?b') b w1 ?u) with (exists x y, w1 = x ++ y /\ den a b x (y ++ u) /\ den b' (b ++ x) y u) in H. destruct H as (x & y & -> & (c & -> & i & [<-|[]] & H) & D). cbn [item_chars] in H. assert (c = 124) as -> by lia.
      apply den_chars in D. exists (y :: ws). cbn [length map concat app]. split; [reflexivity|]. split; [reflexivity|]. constructor; assumption.
    + intros (ws & L & -> & F). destruct ws as [|y ws]; [discriminate|]. inversion F; subst. exists (124 :: y), (concat (map (cons 124) ws)). split; [reflexivity|]. split.
      * exists [124], y. split; [reflexivity|]. split; [|apply den_chars; assumption]. exists 124. split; [reflexivity|]. exists (CRange 124 124). split; [left; reflexivity|]. cbn. lia.
      * apply IH. exists ws. split; [injection L as L; exact L|]. split; [reflexivity|assumption].
Qed.
Lemma join_tail w ws : join [124] (w :: ws) = w ++ concat (map (cons 124) ws).
Proof.
  revert w; induction ws as [|y ws IH]; intros w; [cbn; rewrite app_nil_r; reflexivity|]. change (join [124] (w :: y :: ws)) with (w ++ [124] ++ join [124] (y :: ws)). rewrite IH. reflexivity.
Qed.
Lemma good_bar w : good w -> ~ In 124 w.
Proof. intros [_ F] I. rewrite Forall_forall in F. destruct (F _ I); congruence. Qed.
Theorem fullmatch_choices f : fullmatch space word choices_regex f = true <-> choices space word f.
Proof.
  unfold fullmatch, choices. pose proof (mtch_spec (fun _ => false) space word choices_regex [] f (fun _ t => match t with [] => true | _ => false end)) as M. cbn [nil_] in M. rewrite M. change (lit "|") with [124]. split.
  - intros (w & t & -> & D & K). destruct t; [|discriminate]. rewrite app_nil_r. destruct D as (w1 & w2 & -> & D1 & (n & _ & D2)). apply den_chars in D1. apply (proj1 (times_tail n _ _ _)) in D2. destruct D2 as (ws & _ & -> & F).
    rewrite <- join_tail, split_join1; [constructor; assumption|discriminate|]. intros p [<-|I]; apply good_bar; [exact D1|]. rewrite Forall_forall in F. apply F. exact I.
  - intros F. exists f, []. rewrite app_nil_r. split; [reflexivity|]. split; [|reflexivity]. pose proof (join_split1 124 f) as E. destruct (split [124] f) as [|w ws] eqn:Es; [exfalso; exact (split1_nonempty _ _ Es)|]. inversion F; subst. rewrite join_tail.
    exists w, (concat (map (cons 124) ws)). split; [reflexivity|]. split; [apply den_chars; assumption|]. exists (length ws). split; [exact I|]. apply (proj2 (times_tail _ _ _ _)). exists ws. repeat split. assumption.
Qed.
End Choices.
