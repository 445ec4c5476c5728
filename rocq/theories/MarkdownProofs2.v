(** The cells say what they should, and are texts of one cell. *)
From Verif Require Import PyStr Dec Dsv DsvProofs4 Json Names NamesProofs Column Regex Frictionless FrictionlessProofs2 Expand Props_Expand Markdown MarkdownSpec MarkdownProofs.

Ltac celllit := apply cell_bool; reflexivity.
Lemma replace_chars old new s c : In c (replace old new s) -> In c s \/ In c new.
Proof.
  unfold replace. generalize 0%nat as k. induction s as [|x s IH]; intros k H; [destruct H|]. cbn [replace_aux] in H. destruct k as [|k].
  - destruct (startswith old (x :: s)).
    + apply in_app_or in H. destruct H as [H|H]; [right; exact H|]. apply IH in H. cbn [In]. tauto.
    + destruct H as [->|H]; [left; left; reflexivity|]. apply IH in H. cbn [In]. tauto.
  - apply IH in H. cbn [In]. tauto.
Qed.
Lemma replace_cell old new s : cell_text s -> cell_text new -> cell_text (replace old new s).
Proof. intros [A B] [C D]. split; intros H; apply replace_chars in H; tauto. Qed.

(** *** Keys *)
Lemma prefixes_ns pu : In pu url_prefixes -> In pu namespaces.
Proof. intros I. cbn [url_prefixes In] in I. repeat (destruct I as [<-|I]; [vm_compute; intuition|]). destruct I. Qed.
Lemma prefixes_cell p u : In (p, u) url_prefixes -> cell_text u.
Proof. intros I. cbn [url_prefixes In] in I. repeat (destruct I as [I|I]; [injection I as <- <-; celllit|]). destruct I. Qed.
Lemma qname2url_some q url : qname2url q = Some url ->
  exists p u l, In (p, u) url_prefixes /\ q = p ++ lit ":" ++ l /\ (~ In 58 l -> url = u ++ l) /\ (cell_text q -> cell_text url).
Proof.
  intros H. pose proof (c56_qname2url q) as Q. unfold qname2url in H. destruct (find (fun pu => startswith (fst pu ++ lit ":") q) url_prefixes) as [[p u]|] eqn:E; [|discriminate]. pose proof E as F. apply find_some in F. destruct F as [I S]. cbn [fst] in S. apply startswith_spec in S. destruct S as (l & S). rewrite <- app_assoc in S.
  exists p, u, l. split; [exact I|]. split; [exact S|]. split.
  - intros L. destruct (Q (u ++ l)) as [Q1 _]. destruct (Q1 p u l I S L) as [[_ Q2] _]. specialize (Q2 eq_refl). unfold qname2url in Q2. rewrite E in Q2. congruence.
  - intros C. injection H as <-. apply replace_cell; [exact C|]. exact (prefixes_cell p u I).
Qed.
Lemma key_says_ok html q : key_shown html q (qname2link q html).
Proof.
  unfold key_shown, qname2link. destruct (qname2url q) as [url|] eqn:E.
  - right. apply qname2url_some in E. destruct E as (p & u & l & I & Q & L & _). exists p, u, l, url. split; [exact I|]. split; [exact Q|]. split; [exact L|]. destruct html; reflexivity.
  - left. split; [reflexivity|]. intros p u l I Q. unfold qname2url in E. destruct (find (fun pu => startswith (fst pu ++ lit ":") q) url_prefixes) as [[p' u']|] eqn:F; [discriminate|]. pose proof (find_none _ _ F (p, u) I) as K. cbn [fst] in K.
    rewrite Q, app_assoc, startswith_app in K. discriminate K.
Qed.
Lemma link_cell q html : cell_text q -> cell_text (qname2link q html).
Proof.
  intros C. unfold qname2link. destruct (qname2url q) as [url|] eqn:E; [|exact C]. apply qname2url_some in E. destruct E as (p & u & l & _ & _ & _ & K). specialize (K C).
  destruct html; repeat (apply cell_app; split); try assumption; try celllit.
Qed.

(** *** Values *)
Lemma escape_chars s : html_escape s = escaped s.
Proof.
  unfold html_escape. change (lit "&") with [38]. change (lit "<") with [60]. change (lit ">") with [62]. change (lit "'") with [39]. rewrite !replace_one. unfold replace1, escaped.
  induction s as [|c s IH]; [reflexivity|]. cbn [flat_map]. rewrite !flat_map_app. rewrite IH. f_equal.
  destruct (c =? 38) eqn:E1; [reflexivity|]. cbn [flat_map app]. destruct (c =? 60) eqn:E2; [reflexivity|]. cbn [flat_map app]. destruct (c =? 62) eqn:E3; [reflexivity|]. cbn [flat_map app]. destruct (c =? 34) eqn:E4; [reflexivity|]. cbn [flat_map app]. destruct (c =? 39) eqn:E5; reflexivity.
Qed.
Lemma escaped_cell s : cell_text s -> cell_text (escaped s).
Proof.
  intros [A B]. unfold escaped. split; intros H; apply in_flat_map in H; destruct H as (c & I & H);
    destruct (c =? 38); [vm_compute in H; intuition discriminate| |vm_compute in H; intuition discriminate|];
    (destruct (c =? 60); [vm_compute in H; intuition discriminate|]); (destruct (c =? 62); [vm_compute in H; intuition discriminate|]);
    (destruct (c =? 34); [vm_compute in H; intuition discriminate|]); (destruct (c =? 39); [vm_compute in H; intuition discriminate|]); destruct H as [->|[]]; tauto.
Qed.
Section Values.
Variable str_of : json -> pystr.
Lemma htmlify_shown v : shown str_of v (htmlify str_of v).
Proof.
  induction v as [|b|z|r|s|l IH|d _] using json_ind'; try (match goal with |- shown _ ?x _ => exact (sh_scalar str_of x ltac:(discriminate) ltac:(discriminate)) end).
  - cbn [htmlify]. rewrite <- (map_map (htmlify str_of) (fun t => lit "<li>" ++ t ++ lit "</li>")). apply sh_list. induction IH as [|x l Hx _ IHl]; constructor; assumption.
  - cbn [htmlify]. assert (E : map (fun kv : pystr * json => lit "<dt>" ++ qname2link (fst kv) true ++ lit "</dt><dd>" ++ html_escape (py_str str_of (snd kv)) ++ lit "</dd>") d
      = map (fun p => lit "<dt>" ++ snd p ++ lit "</dt><dd>" ++ escaped (text_of str_of (snd (fst p))) ++ lit "</dd>") (combine d (map (fun kv => qname2link (fst kv) true) d))).
    { induction d as [|kv d IHd]; [reflexivity|]. cbn [map combine fst snd]. rewrite <- IHd, escape_chars. reflexivity. }
    rewrite E. apply sh_obj. clear E. induction d as [|kv d IHd]; constructor; [apply key_says_ok|exact IHd].
Qed.
Lemma tidy_list l : (fix all l := match l with [] => True | x :: r => tidy_value str_of x /\ all r end) l <-> Forall (tidy_value str_of) l.
Proof. induction l as [|x l IH]; [split; [constructor|trivial]|]. split; [intros [H K]; constructor; [exact H|apply IH; exact K]|intros H; inversion H; subst; split; [assumption|apply IH; assumption]]. Qed.
Lemma htmlify_cell v : tidy_value str_of v -> cell_text (htmlify str_of v).
Proof.
  induction v as [|b|z|r|s|l IH|d _] using json_ind'; try (intros H; exact H); cbn [tidy_value htmlify].
  - intros H. apply tidy_list in H. apply cell_app. split; [celllit|]. apply cell_app. split; [|celllit]. apply cell_concat. apply Forall_map.
    induction H as [|x l Hx _ IHl]; [constructor|]. inversion IH; subst. constructor; [|apply IHl; assumption]. apply cell_app. split; [celllit|]. apply cell_app. split; [auto|celllit].
  - intros H. apply cell_app. split; [celllit|]. apply cell_app. split; [|celllit]. apply cell_concat. apply Forall_map. apply (Forall_impl _) with (2 := H). intros [k v] [K V]. cbn [fst snd] in *.
    apply cell_app. split; [celllit|]. apply cell_app. split; [apply link_cell; exact K|]. apply cell_app. split; [celllit|]. apply cell_app. split; [|celllit]. rewrite escape_chars. apply escaped_cell. exact V.
Qed.
End Values.

(** *** The datatype of a column *)
Section Cells.
Variable U : unicode.
Variable str_of : json -> pystr.
Variables space word : N -> bool.
Hypothesis space_bar : space 124 = false.
Hypothesis word_bar : word 124 = false.
Lemma quoted_cell s : cell_text s -> cell_text (quoted s).
Proof. intros H. apply cell_app. split; [celllit|]. apply cell_app. split; [exact H|celllit]. Qed.
Lemma choices_nonempty f : choices space word f -> f <> [].
Proof. intros C ->. unfold choices in C. inversion C as [|x l [N _] _]; subst. apply N. reflexivity. Qed.
Lemma datatype_ok c cell : datatype_cell space word c = Ok cell -> datatype_says space word c cell.
Proof.
  unfold datatype_cell, datatype_says. intros H. apply bind_inv in H. destruct H as (inner & H & K). exists inner. split.
  - destruct (mc_datatype c) as [d|]; [|apply Ok_inj in H; subst; reflexivity]. apply bind_inv in H. destruct H as (x & F & H). apply Ok_inj in H.
    assert (G : exists f, format_says space word d f /\ x = join (lit "<br>") (quoted (md_base d) :: f)).
    { unfold format_says. destruct (md_format d) as [|b|z|r|f|l|o] eqn:Ef; try (destruct (truthy _); [discriminate F|]; apply Ok_inj in F; exists []; split; [reflexivity|rewrite <- F; reflexivity]).
      destruct f as [|c0 f0].
      - cbn [truthy] in F. apply Ok_inj in F. exists []. split; [|rewrite <- F; reflexivity]. right. right. split; [intros C; exact (choices_nonempty _ C eq_refl)|]. split; [left; reflexivity|reflexivity].
      - cbn [truthy] in F. set (f := c0 :: f0) in *. apply Ok_inj in F. destruct (fullmatch space word choices_regex f) eqn:M.
        + apply fullmatch_choices in M; [|exact space_bar|exact word_bar]. exists [lit "Valid choices:"; concat (map (fun w => lit " " ++ quoted w) (split (lit "|") f))]. split; [left; split; [exact M|reflexivity]|]. rewrite <- F.
          change (join (lit "<br>") [?a; ?b; ?e]) with (a ++ lit "<br>" ++ b ++ lit "<br>" ++ e). unfold quoted. rewrite <- !app_assoc. reflexivity.
        + assert (C : ~ choices space word f) by (intros C; apply (proj2 (fullmatch_choices space word space_bar word_bar f)) in C; congruence).
          destruct (str_eqb (md_base d) (lit "string")) eqn:Eb.
          * apply str_eqb_eq in Eb. exists [lit "Regex: " ++ quoted f]. split; [right; left; split; [exact C|]; split; [discriminate|]; split; [exact Eb|reflexivity]|]. rewrite <- F. change (join (lit "<br>") [?a; ?b]) with (a ++ lit "<br>" ++ b). unfold quoted. rewrite <- !app_assoc. reflexivity.
          * exists []. split; [|rewrite <- F; reflexivity]. right. right. split; [exact C|]. split; [right; intros E; rewrite E, str_eqb_refl in Eb; discriminate|reflexivity]. }
    destruct G as (f & G & ->). exists f. split; [exact G|]. rewrite <- H. clear. generalize (quoted (md_base d)) as q. intros q.
    assert (J : forall a l m, join (lit "<br>") (a :: l ++ [m]) = join (lit "<br>") (a :: l) ++ lit "<br>" ++ m).
    { intros a l m. revert a. induction l as [|b l IH]; intros a; [reflexivity|]. change (join (lit "<br>") (a :: (b :: l) ++ [m])) with (a ++ lit "<br>" ++ join (lit "<br>") (b :: l ++ [m])). rewrite IH. change (join (lit "<br>") (a :: b :: l)) with (a ++ lit "<br>" ++ join (lit "<br>") (b :: l)). rewrite <- !app_assoc. reflexivity. }
    assert (J2 : forall a l m n, join (lit "<br>") (a :: l ++ [m; n]) = join (lit "<br>") (a :: l) ++ lit "<br>" ++ m ++ lit "<br>" ++ n).
    { intros a l m n. assert (E : l ++ [m; n] = (l ++ [m]) ++ [n]) by (rewrite <- app_assoc; reflexivity). rewrite E, J, J. rewrite <- !app_assoc. reflexivity. }
    unfold bound_says, parts. destruct (md_min d) as [[[] m]|], (md_max d) as [[[] n]|]; cbn [map concat app]; rewrite ?app_nil_r, ?J2, ?J; rewrite <- ?app_assoc; reflexivity.
  - apply Ok_inj in K. destruct (mc_sep c) as [[|x r]|]; [symmetry; exact K| |symmetry; exact K]. rewrite <- K. unfold quoted. rewrite <- !app_assoc. reflexivity.
Qed.
Lemma datatype_tidy c cell : tidy_column space word c -> datatype_says space word c cell -> cell_text cell.
Proof.
  intros T (inner & H & K). assert (I : cell_text inner).
  { pose proof (tc_datatype _ _ _ T) as D. destruct (mc_datatype c) as [d|]; [|subst; celllit]. specialize (D d eq_refl). destruct D as (B & F & M). destruct H as (f & Hf & ->). apply cell_join; [celllit|]. constructor; [apply quoted_cell; exact B|]. apply Forall_app. split.
    - unfold format_says in Hf. destruct (md_format d) as [|b|z|r|s|l|o]; try (subst f; constructor). specialize (F s eq_refl). destruct F as [F1 F2]. destruct Hf as [[C ->]|[(C & _ & _ & ->)|(_ & _ & ->)]]; [| |constructor].
      + constructor; [celllit|]. constructor; [|constructor]. apply cell_concat, Forall_map. pose proof (split1_nosep 124 s) as N1. pose proof (split1_chars 124 s (fun x => x <> LF)) as N2.
        assert (N3 : Forall (Forall (fun x => x <> LF)) (split [124] s)) by (apply N2; rewrite Forall_forall; intros x I E; subst; exact (F1 I)). clear N2. change (lit "|") with [124]. revert N1 N3. generalize (split [124] s). induction l as [|w l IH]; intros N1 N3; [constructor|]. inversion N1; inversion N3; subst. constructor; [|apply IH; assumption].
        apply cell_app. split; [celllit|]. apply quoted_cell. split; [|assumption]. intros I. match goal with X : Forall _ w |- _ => rewrite Forall_forall in X; exact (X _ I eq_refl) end.
      + constructor; [|constructor]. apply cell_app. split; [celllit|]. apply quoted_cell. split; [exact F1|]. destruct F2 as [F2|F2]; [contradiction|exact F2].
    - unfold parts, bound_says. apply Forall_concat. assert (X : forall o label, (forall b m, o = Some (b, m) -> cell_text m) -> cell_text label -> Forall cell_text (match match o with Some (true, m) => Some (label ++ m) | _ => None end with Some s => [s] | None => [] end)).
      { intros o label Ho Hl. destruct o as [[[] m]|]; [|constructor|constructor]. constructor; [|constructor]. apply cell_app. split; [exact Hl|exact (Ho _ _ eq_refl)]. }
      cbn [map]. constructor; [|constructor; [|constructor]]; apply X; try celllit; intros b m E; apply (M b m); [left|right]; exact E. }
  destruct (mc_sep c) as [[|x r]|] eqn:Es; [subst; exact I| |subst; exact I]. subst cell. pose proof (tc_sep _ _ _ T) as S. rewrite Es in S.
  apply cell_app. split; [celllit|]. apply cell_app. split; [exact I|]. apply cell_app. split; [celllit|]. apply cell_app. split; [|celllit]. apply quoted_cell. exact S.
Qed.
End Cells.
