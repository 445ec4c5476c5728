(** C21. *)
From Verif Require Import PyStr Dec DecProofs DecProofs2 NamesProofs PatternProofs BasicProofs Dates DateSpec.
From Coq Require Import ZifyBool ZifyN ZifyNat.

Lemma documented_same p : In p documented_dates <-> In (dpat_text p) date_patterns /\ exists q, In q documented_dates /\ q = p.
Proof.
  split; [|intros [_ (q & H & <-)]; exact H]. intros H. split; [|eauto].
  assert (A : forallb (fun p => str_mem (dpat_text p) date_patterns) documented_dates = true) by (vm_compute; reflexivity).
  rewrite forallb_forall in A. apply str_mem_In, A, H.
Qed.
Lemma dates_covered s : In s date_patterns -> exists p, In p documented_dates /\ s = dpat_text p.
Proof.
  intros H.
  assert (A : Forall (fun s => exists p, In p documented_dates /\ s = dpat_text p) date_patterns).
  { assert (E : Forall (fun s => In s (map dpat_text documented_dates)) date_patterns) by (apply Forall_forall; intros x Hx; apply str_mem_In; revert x Hx; apply forallb_forall; vm_compute; reflexivity).
    eapply Forall_impl; [|exact E]. intros a Ha. apply in_map_iff in Ha. destruct Ha as (p & <- & Hp). eauto. }
  eapply Forall_forall in A; eassumption.
Qed.
Lemma times_covered s : In s time_patterns <-> exists t, s = tpat_text t.
Proof.
  split.
  - intros H. cbn in H. destruct H as [<-|[<-|[<-|[<-|[]]]]].
    + exists {| tp_colon := true; tp_secs := true |}. reflexivity.
    + exists {| tp_colon := false; tp_secs := true |}. reflexivity.
    + exists {| tp_colon := true; tp_secs := false |}. reflexivity.
    + exists {| tp_colon := false; tp_secs := false |}. reflexivity.
  - intros [[[] []] ->]; vm_compute; tauto.
Qed.

(** ** the marker *)
Lemma take_x_spec n r : r = fst (take_x n r) ++ snd (take_x n r) /\ (length (fst (take_x n r)) <= n)%nat
  /\ Forall (fun c => c = 120 \/ c = 88) (fst (take_x n r))
  /\ ((length (fst (take_x n r)) < n)%nat -> match snd (take_x n r) with c :: _ => c <> 120 /\ c <> 88 | [] => True end).
Proof.
  revert r. induction n as [|n IH]; intros r; cbn [take_x].
  - cbn. repeat split; auto; lia.
  - destruct r as [|c r]; [cbn; repeat split; auto with arith|]. destruct ((c =? 120) || (c =? 88)) eqn:E.
    + destruct (IH r) as (H1 & H2 & H3 & H4). cbn [fst snd app length]. repeat split.
      * f_equal. exact H1.
      * lia.
      * constructor; [lia|exact H3].
      * intros H. apply H4. lia.
    + cbn [fst snd app length]. repeat split; auto; try lia; constructor.
Qed.
Lemma marker_at_spec s : match marker_at s with
  | Some (f, m) => s = f ++ m /\ exists space xs, m = (if space : bool then [32] else []) ++ xs /\ (1 <= length xs <= 3)%nat
                   /\ Forall (fun c => c = 120 \/ c = 88) xs
                   /\ (space = false -> forall b, f <> b ++ [32])
  | None => forall b x, s = b ++ [x] -> x <> 120 /\ x <> 88
  end.
Proof.
  unfold marker_at. destruct (take_x_spec 3 (rev s)) as (H1 & H2 & H3 & H4).
  destruct (take_x 3 (rev s)) as [xs rest]. cbn [fst snd] in *.
  assert (Es : s = rev rest ++ rev xs) by (rewrite <- rev_app_distr, <- H1, rev_involutive; reflexivity).
  destruct xs as [|x xs].
  - intros b x E. rewrite E, rev_app_distr in H1. cbn in H1. subst rest. cbn [length] in H4. specialize (H4 ltac:(lia)). exact H4.
  - assert (L : (1 <= length (rev (x :: xs)) <= 3)%nat) by (rewrite rev_length; cbn [length] in *; lia).
    assert (A : Forall (fun c => c = 120 \/ c = 88) (rev (x :: xs))) by (apply Forall_rev, H3).
    destruct rest as [|c rest].
    + split; [rewrite Es; reflexivity|]. exists false, (rev (x :: xs)). repeat split; try tauto; try lia.
      intros _ b E. destruct b; discriminate.
    + destruct (N.eqb_spec c 32) as [->|Hn].
      * split; [rewrite Es; cbn [rev]; rewrite <- !app_assoc; reflexivity|]. exists true, (rev (x :: xs)). repeat split; try tauto; try lia.
      * split; [exact Es|]. exists false, (rev (x :: xs)). repeat split; try tauto; try lia.
        intros _ b E. cbn [rev] in E. apply app_inj_tail in E. destruct E. congruence.
Qed.
Definition lf_text (lf : bool) : pystr := if lf then [10] else [].
Lemma search_marker_spec s : match search_marker s with
  | Some (f, m) => exists lf space xs, s = f ++ m ++ lf_text lf /\ m = (if space : bool then [32] else []) ++ xs /\ (1 <= length xs <= 3)%nat
                   /\ Forall (fun c => c = 120 \/ c = 88) xs /\ (space = false -> forall b, f <> b ++ [32])
  | None => forall b x lf, s = b ++ [x] ++ lf_text lf -> x <> 120 /\ x <> 88
  end.
Proof.
  unfold search_marker. destruct (rev s) as [|c r] eqn:E.
  - apply (f_equal (@rev N)) in E. rewrite rev_involutive in E. subst s. intros b x lf H. destruct b; discriminate.
  - apply (f_equal (@rev N)) in E. rewrite rev_involutive in E. cbn [rev] in E.
    destruct (N.eqb_spec c 10) as [->|Hn].
    + pose proof (marker_at_spec (rev r)) as S. destruct (marker_at (rev r)) as [[f m]|].
      * destruct S as (Es & space & xs & H). exists true, space, xs. rewrite E, Es, <- app_assoc. split; [reflexivity|exact H].
      * intros b x lf H. destruct lf; cbn [lf_text] in H; rewrite E in H.
        -- rewrite app_assoc in H. apply app_inj_tail in H. destruct H as [H _]. apply (S b x H).
        -- rewrite app_nil_r in H. apply app_inj_tail in H. destruct H as [_ H]. subst x. split; discriminate.
    + pose proof (marker_at_spec s) as S. destruct (marker_at s) as [[f m]|].
      * destruct S as (Es & space & xs & H). exists false, space, xs. cbn [lf_text]. rewrite app_nil_r. split; [exact Es|exact H].
      * intros b x lf H. destruct lf; cbn [lf_text] in H.
        -- rewrite E, app_assoc in H. apply app_inj_tail in H. destruct H. congruence.
        -- rewrite app_nil_r in H. apply (S b x H).
Qed.
Definition xc (c : N) : Prop := c = 120 \/ c = 88.
Lemma take_x_run b xs : (1 <= length xs <= 3)%nat -> Forall xc xs -> (forall q c, b = q ++ [c] -> ~ xc c) ->
  take_x 3 (rev (b ++ xs)) = (rev xs, rev b).
Proof.
  intros L A Hb. rewrite rev_app_distr.
  assert (R : forall n ys, (length ys <= n)%nat -> Forall xc ys -> take_x n (ys ++ rev b) = (ys, rev b)).
  { intros n. induction n as [|n IH]; intros ys Ly Ay.
    - destruct ys; [|cbn in Ly; lia]. reflexivity.
    - destruct ys as [|c ys]; cbn [app].
      + destruct (rev b) as [|c r] eqn:E; [reflexivity|]. cbn [take_x].
        apply (f_equal (@rev N)) in E. rewrite rev_involutive in E. cbn [rev] in E. specialize (Hb _ _ E).
        destruct ((c =? 120) || (c =? 88)) eqn:Ec; [|reflexivity]. exfalso. apply Hb. unfold xc. lia.
      + cbn [take_x]. pose proof (Forall_inv Ay) as H. pose proof (Forall_inv_tail Ay) as Hr. cbn in Ly.
        replace ((c =? 120) || (c =? 88)) with true by (unfold xc in H; lia).
        rewrite IH by (auto; lia). reflexivity. }
  apply R; [rewrite rev_length; lia|]. apply Forall_rev, A.
Qed.
Lemma rev_not_nil {A} (l : list A) : l <> [] -> exists a r, rev l = a :: r.
Proof. intros H. destruct (rev l) as [|a r] eqn:E; [|eauto]. apply (f_equal (@rev A)) in E. rewrite rev_involutive in E. contradiction. Qed.
Lemma marker_at_form b (space : bool) xs : (1 <= length xs <= 3)%nat -> Forall xc xs -> (forall q c, b = q ++ [c] -> ~ xc c) ->
  (space = false -> forall q, b <> q ++ [32]) ->
  marker_at (b ++ (if space then [32] else []) ++ xs) = Some (b, (if space then [32] else []) ++ xs).
Proof.
  intros L A Hb Hs. unfold marker_at. destruct space.
  - rewrite app_assoc, take_x_run; auto.
    + cbn [fst snd]. rewrite rev_app_distr. cbn [rev app].
      destruct (rev_not_nil xs) as (a & r & E); [intros ->; cbn in L; lia|]. rewrite E. cbn.
      rewrite rev_involutive. apply (f_equal (@rev N)) in E. rewrite rev_involutive in E. cbn [rev] in E. rewrite <- E. reflexivity.
    + intros q c E. apply app_inj_tail in E. destruct E as [_ <-]. unfold xc. lia.
  - cbn [app]. rewrite take_x_run; auto. cbn [fst snd].
    destruct (rev_not_nil xs) as (a & r & E); [intros ->; cbn in L; lia|]. rewrite E. rewrite <- E, rev_involutive.
    destruct (rev b) as [|c rb] eqn:Eb.
    + apply (f_equal (@rev N)) in Eb. rewrite rev_involutive in Eb. subst b. reflexivity.
    + apply (f_equal (@rev N)) in Eb. rewrite rev_involutive in Eb. cbn [rev] in Eb.
      destruct (N.eqb_spec c 32) as [->|Hc]; [exfalso; eapply Hs; eauto|]. cbn [rev]. rewrite <- Eb. reflexivity.
Qed.
Lemma search_marker_form b (space : bool) xs lf : (1 <= length xs <= 3)%nat -> Forall xc xs -> (forall q c, b = q ++ [c] -> ~ xc c) ->
  (space = false -> forall q, b <> q ++ [32]) ->
  search_marker (b ++ ((if space then [32] else []) ++ xs) ++ lf_text lf) = Some (b, (if space then [32] else []) ++ xs).
Proof.
  intros L A Hb Hs. unfold search_marker. destruct lf; cbn [lf_text].
  - rewrite !rev_app_distr. cbn [rev app]. change (10 =? 10) with true. cbn iota.
    rewrite <- rev_app_distr, <- rev_app_distr, rev_involutive. apply marker_at_form; auto.
  - rewrite app_nil_r. destruct (rev_not_nil (b ++ (if space then [32] else []) ++ xs)) as (a & r & E).
    { destruct b, space, xs; cbn in *; try discriminate; lia. }
    rewrite E. destruct (N.eqb_spec a 10) as [->|Ha]; [|apply marker_at_form; auto].
    exfalso. rewrite !rev_app_distr in E. destruct (rev_not_nil xs) as (a & r' & E'); [intros ->; cbn in L; lia|].
    rewrite E' in E. injection E as -> _. assert (H : In 10 xs) by (apply in_rev; rewrite E'; left; reflexivity).
    eapply Forall_forall in H; [|exact A]. unfold xc in H. lia.
Qed.
Lemma search_marker_none b : (forall q c, b = q ++ [c] -> ~ xc c /\ c <> 10) -> search_marker b = None.
Proof.
  intros H. unfold search_marker. destruct (rev b) as [|c r] eqn:E; [reflexivity|].
  assert (Eb : b = rev r ++ [c]) by (apply (f_equal (@rev N)) in E; rewrite rev_involutive in E; exact E).
  destruct (H _ _ Eb) as [H1 H2]. replace (c =? 10) with false by lia. unfold marker_at. rewrite E. cbn [take_x].
  replace ((c =? 120) || (c =? 88)) with false by (unfold xc in H1; lia). reflexivity.
Qed.
Lemma one_char_form (space : bool) xs : (1 <= length xs <= 3)%nat -> Forall xc xs ->
  one_char ((if space then [32] else []) ++ xs) = true <-> exists x, xc x /\ xs = repeat x (length xs).
Proof.
  intros L A. split.
  - intros H. destruct xs as [|a xs]; [cbn in L; lia|]. exists a. pose proof (Forall_inv A) as Ha. split; [exact Ha|].
    apply Forall_inv_tail in A. destruct xs as [|b xs]; [reflexivity|].
    pose proof (Forall_inv A) as Hb. apply Forall_inv_tail in A.
    destruct xs as [|c xs].
    + destruct Ha as [->| ->], Hb as [->| ->], space; cbn in H; try discriminate; reflexivity.
    + pose proof (Forall_inv A) as Hc. destruct xs; [|cbn in L; lia].
      destruct Ha as [->| ->], Hb as [->| ->], Hc as [->| ->], space; cbn in H; try discriminate; reflexivity.
  - intros (x & Hx & E). rewrite E. destruct (length xs) as [|[|[|[|]]]]; try lia; destruct Hx as [->| ->], space; reflexivity.
Qed.

(** ** the body *)
Definition plainc (c : N) : bool := negb (char_mem c [32; 84; 120; 88; 10]).
Lemma dpat_plain p : In p documented_dates -> forallb plainc (dpat_text p) = true.
Proof. revert p. apply forallb_forall. vm_compute. reflexivity. Qed.
Lemma tpat_plain t : forallb plainc (tpat_text t) = true /\ char_mem 46 (tpat_text t) = false.
Proof. destruct t as [[] []]; vm_compute; auto. Qed.
Lemma plain_not c l : forallb plainc l = true -> char_mem c [32; 84; 120; 88; 10] = true -> ~ In c l.
Proof.
  intros H Hc Hi. rewrite forallb_forall in H. specialize (H _ Hi). unfold plainc in H. rewrite Hc in H. discriminate.
Qed.
Lemma repeat_plain n : forallb plainc (repeat 83 n) = true.
Proof. induction n; [reflexivity|]. cbn [repeat forallb]. rewrite IHn. reflexivity. Qed.
Lemma time_plain t n : forallb plainc (time_text t n) = true.
Proof.
  unfold time_text. rewrite forallb_app. apply andb_true_intro. split.
  - destruct t; [apply tpat_plain|reflexivity].
  - destruct n; [reflexivity|]. rewrite forallb_app, repeat_plain. reflexivity.
Qed.
Lemma dopt_plain dp : (forall p, dp = Some p -> In p documented_dates) -> forallb plainc (opt_text dpat_text dp) = true.
Proof. intros H. destruct dp; [|reflexivity]. apply dpat_plain, H, eq_refl. Qed.

(** the items of each part *)
Definition fmonth (b : bool) : item := IField FMonth (if b then 2 else 1) 2.
Definition fday (b : bool) : item := IField FDay (if b then 2 else 1) 2.
Definition put_sep (sep : pystr) (l : list item) : list item :=
  match sep with c :: _ => intersperse (ILit c) l | [] => l end.
Definition ditems (p : dpat) : list item :=
  put_sep (dp_sep p) (in_order (dp_order p) (IField FYear 4 4) (fmonth (dp_padded p)) (fday (dp_padded p))).
Definition titems (t : tpat) : list item :=
  put_sep (if tp_colon t then [58] else []) ([IField FHour 2 2; IField FMinute 2 2] ++ if tp_secs t then [IField FSecond 2 2] else []).
Definition oitems {A} (f : A -> list item) (o : option A) : list item := match o with Some a => f a | None => [] end.
Definition msitems (n : nat) : list item := match n with O => [] | _ => [IFrac n; IExtra (S n)] end.
Lemma ditems_ok p : In p documented_dates -> date_items (dpat_text p) = Ok (ditems p) /\ dpat_text p <> [] /\ str_mem (dpat_text p) date_patterns = true.
Proof. intros H. cbn in H. repeat (destruct H as [<-|H]; [vm_compute; auto; repeat split; discriminate|]). destruct H. Qed.
Lemma titems_ok t : time_items (tpat_text t) = Ok (titems t) /\ tpat_text t <> [] /\ str_mem (tpat_text t) time_patterns = true.
Proof. destruct t as [[] []]; vm_compute; repeat split; discriminate. Qed.

(** time part and date part of a body *)
Definition time_step (t : pystr) : res (pystr * nat) :=
  if char_mem 46 t then
    match split [46] t with
    | [t'; ms] => if negb (match ms with [] => true | _ => false end) && forallb (N.eqb 83) ms
                  then Ok (t', length ms) else Err ValueError
    | _ => Err ValueError
    end
  else Ok (t, 0%nat).
Lemma forallb_repeat n : forallb (N.eqb 83) (repeat 83 n) = true.
Proof. induction n; cbn; auto. Qed.
Lemma all_repeat l : forallb (N.eqb 83) l = true -> l = repeat 83 (length l).
Proof. induction l as [|c l IH]; [reflexivity|]. cbn [forallb length repeat]. intros H. apply andb_prop in H. destruct H as [H1 H2]. rewrite <- IH by exact H2. apply N.eqb_eq in H1. subst. reflexivity. Qed.
Lemma time_step_ok t n : time_step (time_text t n) = Ok (opt_text tpat_text t, n).
Proof.
  unfold time_step, time_text. assert (H : char_mem 46 (opt_text tpat_text t) = false) by (destruct t; [apply tpat_plain|reflexivity]).
  destruct n as [|n].
  - rewrite app_nil_r, H. reflexivity.
  - replace (char_mem 46 _) with true.
    2:{ symmetry. apply char_mem_In. apply in_or_app. right. left. reflexivity. }
    change (opt_text tpat_text t ++ lit "." ++ repeat 83 (S n)) with (join [46] [opt_text tpat_text t; repeat 83 (S n)]).
    rewrite split_join.
    + cbn [repeat negb andb forallb]. rewrite forallb_repeat. change (83 =? 83) with true. cbn [andb length]. rewrite repeat_length. reflexivity.
    + discriminate.
    + constructor; [apply char_mem_false, H|]. constructor; [|constructor].
      intros Hi. apply repeat_spec in Hi. discriminate.
Qed.
Lemma time_step_inv t t' n : time_step t = Ok (t', n) -> t = t' ++ (match n with O => [] | _ => lit "." ++ repeat 83 n end) .
Proof.
  unfold time_step. destruct (char_mem 46 t) eqn:E.
  - pose proof (join_split1 46 t) as J. destruct (split [46] t) as [|a [|b [|]]]; try discriminate.
    destruct b as [|x b]; [discriminate|]. cbn [negb andb]. destruct (forallb (N.eqb 83) (x :: b)) eqn:F; [|discriminate].
    intros H. injection H as <- <-. apply all_repeat in F. cbn [length] in *. rewrite <- F. rewrite <- J. reflexivity.
  - intros H. injection H as <- <-. rewrite app_nil_r. reflexivity.
Qed.
Lemma time_step_err t e : time_step t = Err e -> e = ValueError.
Proof.
  unfold time_step. destruct (char_mem 46 t); [|discriminate]. destruct (split [46] t) as [|a [|b [|]]]; try (intros H; injection H; auto; fail).
  destruct (_ && _); [discriminate|]. intros H; injection H; auto.
Qed.

Definition split_step (fmt : pystr) (nd : bool) : res (option N * pystr * pystr) :=
  let sep := find (fun c => char_mem c fmt) [32; 84] in
  match sep with
  | Some c => match split [c] fmt with [d; t] => Ok (sep, d, t) | _ => Err ValueError end
  | None => Ok (if nd then (None, [], fmt) else (None, fmt, []))
  end.
Definition isbad (l : list pystr) (s : pystr) : bool := match s with [] => false | _ => negb (str_mem s l) end.
Lemma dt_body_steps fmt nd : dt_body fmt nd =
  (x <- split_step fmt nd ;;
   ft <- time_step (snd x) ;;
   if isbad date_patterns (snd (fst x)) || isbad time_patterns (fst ft) then Err ValueError
   else di <- date_items (snd (fst x)) ;; ti <- time_items (fst ft) ;;
        Ok (di ++ match fst (fst x) with Some c => [ILit c] | None => [] end ++ ti ++ msitems (snd ft))).
Proof.
  unfold dt_body, split_step. cbv zeta. destruct (find _ _) as [c|].
  - destruct (split [c] fmt) as [|a [|b [|]]]; reflexivity.
  - destruct nd; reflexivity.
Qed.
Definition body_items (nd : bool) (dp : option dpat) (sep : option N) (t : option tpat) (n : nat) : list item :=
  match sep with
  | Some c => oitems ditems dp ++ [ILit c] ++ oitems titems t ++ msitems n
  | None => if nd then oitems titems t ++ msitems n else oitems ditems dp
  end.
Lemma bad_date dp : (forall p, dp = Some p -> In p documented_dates) ->
  isbad date_patterns (opt_text dpat_text dp) = false /\ date_items (opt_text dpat_text dp) = Ok (oitems ditems dp).
Proof.
  intros H. destruct dp as [p|]; [|split; reflexivity]. destruct (ditems_ok p (H _ eq_refl)) as (H1 & H2 & H3).
  cbn [opt_text oitems]. split; [|exact H1]. unfold isbad. rewrite H3. destruct (dpat_text p); reflexivity.
Qed.
Lemma bad_time t : isbad time_patterns (opt_text tpat_text t) = false /\ time_items (opt_text tpat_text t) = Ok (oitems titems t).
Proof.
  destruct t as [p|]; [|split; reflexivity]. destruct (titems_ok p) as (H1 & H2 & H3).
  cbn [opt_text oitems]. split; [|exact H1]. unfold isbad. rewrite H3. destruct (tpat_text p); reflexivity.
Qed.
Lemma find_none c l : forallb plainc l = true -> char_mem c [32; 84; 120; 88; 10] = true -> char_mem c l = false.
Proof. intros. apply char_mem_false. eapply plain_not; eauto. Qed.
Lemma split_step_body nd dp sep t n : (forall p, dp = Some p -> In p documented_dates) -> (forall c, sep = Some c -> c = 32 \/ c = 84) ->
  split_step (body_text nd dp sep t n) nd =
  Ok (match sep with Some c => (sep, opt_text dpat_text dp, time_text t n)
      | None => if nd then (None, [], time_text t n) else (None, opt_text dpat_text dp, []) end).
Proof.
  intros Hd Hs. unfold split_step. pose proof (dopt_plain dp Hd) as Pd. pose proof (time_plain t n) as Pt.
  destruct sep as [c|]; cbn [body_text].
  - assert (Hsp : split [c] (opt_text dpat_text dp ++ [c] ++ time_text t n) = [opt_text dpat_text dp; time_text t n]).
    { change (opt_text dpat_text dp ++ [c] ++ time_text t n) with (join [c] [opt_text dpat_text dp; time_text t n]).
      apply split_join; [discriminate|].
      assert (char_mem c [32; 84; 120; 88; 10] = true) by (destruct (Hs c eq_refl) as [->| ->]; reflexivity).
      repeat constructor; eapply plain_not; eauto. }
    destruct (Hs c eq_refl) as [->| ->]; cbn [find].
    + replace (char_mem 32 _) with true by (symmetry; apply char_mem_In; apply in_or_app; right; left; reflexivity). rewrite Hsp. reflexivity.
    + replace (char_mem 32 _) with false.
      2:{ symmetry. apply char_mem_false. intros Hi. apply in_app_or in Hi. destruct Hi as [Hi|[Hi|Hi]]; [|discriminate|];
          (eapply plain_not; [| |exact Hi]; [assumption|reflexivity]). }
      replace (char_mem 84 _) with true by (symmetry; apply char_mem_In; apply in_or_app; right; left; reflexivity). rewrite Hsp. reflexivity.
  - destruct nd; cbn [find]; rewrite !find_none; auto.
Qed.
Lemma dt_body_ok nd dp sep t n : (forall p, dp = Some p -> In p documented_dates) -> (forall c, sep = Some c -> c = 32 \/ c = 84) ->
  dt_body (body_text nd dp sep t n) nd = Ok (body_items nd dp sep t n).
Proof.
  intros Hd Hs. rewrite dt_body_steps, split_step_body by auto. destruct (bad_date dp Hd) as [B1 B2]. destruct (bad_time t) as [B3 B4].
  destruct sep as [c|]; [|destruct nd]; cbn [bind fst snd].
  - rewrite time_step_ok. cbn [bind fst snd]. rewrite B1, B2, B3, B4. reflexivity.
  - rewrite time_step_ok. cbn [bind fst snd]. rewrite B3, B4. reflexivity.
  - change (time_step []) with (@Ok (pystr * nat) ([], 0%nat)). cbn [bind fst snd]. rewrite B1, B2.
    cbn [isbad orb bind time_items msitems]. rewrite !app_nil_r. reflexivity.
Qed.
Lemma bad_inv_date s : isbad date_patterns s = false -> exists dp, (forall p, dp = Some p -> In p documented_dates) /\ s = opt_text dpat_text dp.
Proof.
  destruct s as [|c s]; [exists None; split; [discriminate|reflexivity]|]. unfold isbad. intros H. apply negb_false_iff, str_mem_In, dates_covered in H.
  destruct H as (p & Hp & E). exists (Some p). split; [congruence|exact E].
Qed.
Lemma bad_inv_time s : isbad time_patterns s = false -> exists t, s = opt_text tpat_text t.
Proof.
  destruct s as [|c s]; [exists None; reflexivity|]. unfold isbad. intros H. apply negb_false_iff, str_mem_In, times_covered in H.
  destruct H as (p & E). exists (Some p). exact E.
Qed.
Lemma dt_body_inv nd s : match dt_body s nd with
  | Ok its => exists dp sep t n, (forall p, dp = Some p -> In p documented_dates) /\ (forall c, sep = Some c -> c = 32 \/ c = 84)
                 /\ s = body_text nd dp sep t n /\ its = body_items nd dp sep t n
  | Err e => e = ValueError
  end.
Proof.
  assert (K : dt_body s nd = Err ValueError \/ exists dp sep t n, (forall p, dp = Some p -> In p documented_dates) /\ (forall c, sep = Some c -> c = 32 \/ c = 84)
                 /\ s = body_text nd dp sep t n).
  { rewrite dt_body_steps. unfold split_step. destruct (find (fun c => char_mem c s) [32; 84]) as [c|] eqn:F.
    - apply find_some in F. destruct F as [Fi _]. pose proof (join_split1 c s) as J. destruct (split [c] s) as [|a [|b [|]]]; try (left; reflexivity).
      cbn [bind fst snd]. destruct (time_step b) as [[t' n]|e] eqn:T; [|left; cbn [bind]; f_equal; eapply time_step_err; eauto].
      cbn [bind fst snd]. destruct (isbad date_patterns a) eqn:B1; [left; reflexivity|]. destruct (isbad time_patterns t') eqn:B2; [left; reflexivity|].
      right. destruct (bad_inv_date _ B1) as (dp & Hd & ->). destruct (bad_inv_time _ B2) as (t & ->).
      exists dp, (Some c), t, n. split; [exact Hd|]. split; [intros c0 E; injection E as <-; cbn in Fi; intuition|].
      apply time_step_inv in T. rewrite <- J. cbn [join body_text]. rewrite T. reflexivity.
    - destruct nd; cbn [bind fst snd].
      + destruct (time_step s) as [[t' n]|e] eqn:T; [|left; cbn [bind]; f_equal; eapply time_step_err; eauto].
        cbn [bind fst snd isbad orb]. destruct (isbad time_patterns t') eqn:B2; [left; reflexivity|].
        right. destruct (bad_inv_time _ B2) as (t & ->). exists None, None, t, n. repeat split; try discriminate. apply time_step_inv in T. exact T.
      + change (time_step []) with (@Ok (pystr * nat) ([], 0%nat)). cbn [bind fst snd].
        destruct (isbad date_patterns s) eqn:B1; [left; reflexivity|].
        right. destruct (bad_inv_date _ B1) as (dp & Hd & ->). exists dp, None, None, 0%nat. repeat split; auto; discriminate. }
  destruct K as [->|(dp & sep & t & n & Hd & Hs & ->)]; [reflexivity|].
  rewrite dt_body_ok by auto. exists dp, sep, t, n. auto.
Qed.
Lemma body_last nd dp sep t n : (forall p, dp = Some p -> In p documented_dates) -> (forall c, sep = Some c -> c = 32 \/ c = 84) ->
  forall q c, body_text nd dp sep t n = q ++ [c] -> ~ xc c /\ c <> 10.
Proof.
  intros Hd Hs q c E. assert (Hi : In c (body_text nd dp sep t n)) by (rewrite E; apply in_or_app; right; left; reflexivity).
  pose proof (dopt_plain dp Hd) as Pd. pose proof (time_plain t n) as Pt.
  assert (P : forall l, forallb plainc l = true -> In c l -> ~ xc c /\ c <> 10).
  { intros l Hl Hc. split; [intros [->| ->]|intros ->]; (eapply plain_not; [exact Hl| |exact Hc]; reflexivity). }
  destruct sep as [x|]; cbn [body_text] in Hi.
  - apply in_app_or in Hi. destruct Hi as [Hi|[Hi|Hi]]; eauto. subst x. unfold xc. destruct (Hs c eq_refl); lia.
  - destruct nd; eauto.
Qed.

Theorem format_accepted nd fmt :
  match dt_format_and_regex fmt nd with
  | Ok F => accepted nd fmt
  | Err e => e = ValueError /\ ~ accepted nd fmt
  end.
Proof.
  assert (C : accepted nd fmt -> exists F, dt_format_and_regex fmt nd = Ok F).
  { intros (dp & sep & t & n & m & Hd & Hs & Hm & Hsp & ->). pose proof (body_last nd dp sep t n Hd Hs) as BL.
    unfold dt_format_and_regex. destruct Hm as [->|(space & x & k & lf & Hx & Hk & ->)].
    - rewrite app_nil_r, search_marker_none by exact BL. rewrite dt_body_ok by auto. cbn [bind]. eauto.
    - unfold marker_text in *. rewrite (app_assoc _ (repeat x k)). change (if lf then [10] else []) with (lf_text lf). rewrite (search_marker_form (body_text nd dp sep t n) space (repeat x k) lf).
      + assert (O : one_char ((if space then [32] else []) ++ repeat x k) = true).
        { apply one_char_form; [rewrite repeat_length; lia|apply Forall_forall; intros y Hy; apply repeat_spec in Hy; subst; exact Hx|].
          exists x. rewrite repeat_length. auto. }
        rewrite O, dt_body_ok by auto. cbn [bind]. eauto.
      + rewrite repeat_length. lia.
      + apply Forall_forall. intros y Hy. apply repeat_spec in Hy. subst. exact Hx.
      + intros q c E. apply (BL q c E).
      + intros -> q E. destruct (Hsp q E) as [Hm|(m' & Hm)]; destruct k; try lia; cbn in Hm; try discriminate.
        injection Hm as -> _. unfold xc in Hx. lia. }
  assert (D : match dt_format_and_regex fmt nd with Ok F => accepted nd fmt | Err e => e = ValueError end).
  { unfold dt_format_and_regex. pose proof (search_marker_spec fmt) as S. destruct (search_marker fmt) as [[f m]|].
    - destruct S as (lf & space & xs & E & -> & L & A & Hsp). pose proof (one_char_form space xs L A) as O.
      destruct (one_char _); [|reflexivity]. destruct (proj1 O eq_refl) as (x & Hx & Exs).
      pose proof (dt_body_inv nd f) as B. destruct (dt_body f nd) as [its|e]; [|exact B]. cbn [bind].
      destruct B as (dp & sep & t & n & Hd & Hs & -> & _). exists dp, sep, t, n, (marker_text space x (length xs) lf). split; [exact Hd|]. split; [exact Hs|].
      split; [right; exists space, x, (length xs), lf; auto|]. split.
      + intros b Eb. right. destruct space; [eexists; reflexivity|]. exfalso. eapply Hsp; eauto.
      + rewrite E. unfold marker_text. rewrite <- Exs, <- app_assoc. destruct lf; reflexivity.
    - pose proof (dt_body_inv nd fmt) as B. destruct (dt_body fmt nd) as [its|e]; [|exact B]. cbn [bind].
      destruct B as (dp & sep & t & n & Hd & Hs & -> & _). exists dp, sep, t, n, []. rewrite app_nil_r. repeat split; auto. left. reflexivity. }
  destruct (dt_format_and_regex fmt nd) as [F|e]; [exact D|]. split; [exact D|]. intros H. destruct (C H) as [F HF]. discriminate.
Qed.
