(** C17. *)
From Verif Require Import PyStr Dec Numeric NumericSpec DecProofs DecProofs2 NumericProofs.
From Coq Require Import ZifyBool ZifyN ZifyNat.

(** ** thousands groups *)
Lemma join_snoc sep gs a x : join sep (gs ++ [a]) ++ x = join sep (gs ++ [a ++ x]).
Proof.
  induction gs as [|g gs IH]; [reflexivity|].
  destruct gs as [|h gs]; cbn [app join] in *.
  - rewrite <- !app_assoc. reflexivity.
  - rewrite <- !app_assoc. rewrite IH. reflexivity.
Qed.
Lemma join_snoc_nil sep gs a : join sep ((gs ++ [a]) ++ [[]]) = join sep (gs ++ [a]) ++ sep.
Proof.
  induction gs as [|g gs IH].
  - cbn [app join]. rewrite app_nil_r. reflexivity.
  - destruct gs as [|h gs]; cbn [app join] in *.
    + rewrite IH, <- !app_assoc. reflexivity.
    + rewrite IH, <- !app_assoc. reflexivity.
Qed.
Lemma group3_rev_join r : forall n, (n <= 3)%nat ->
  exists gs a, rev (group3_rev n r) = join [44] (gs ++ [a]) /\ concat (gs ++ [a]) = rev r
    /\ Forall (fun g => g <> []) gs /\ length a = Nat.min (3 - n) (length r)
    /\ (gs = [] <-> (length r <= 3 - n)%nat).
Proof.
  induction r as [|c r IH]; intros n Hn.
  - exists [], []. cbn. repeat split; auto; lia.
  - cbn [group3_rev]. destruct (Nat.eqb_spec n 3) as [->|Hne].
    + destruct (IH 1%nat ltac:(lia)) as (gs & a & E & Hc & Hf & Hl & Hg).
      exists (gs ++ [a ++ [c]]), []. cbn [rev]. rewrite E, join_snoc, join_snoc_nil.
      split; [reflexivity|]. split; [|split; [|split]].
      * rewrite !concat_app in *. cbn [concat] in *. rewrite !app_nil_r in *. rewrite app_assoc, Hc. reflexivity.
      * apply Forall_app. split; [exact Hf|]. constructor; [|constructor]. destruct a; discriminate.
      * cbn. reflexivity.
      * cbn [length]. split; [intros H; destruct gs; discriminate|lia].
    + destruct (IH (S n) ltac:(lia)) as (gs & a & E & Hc & Hf & Hl & Hg).
      exists gs, (a ++ [c]). cbn [rev]. rewrite E, join_snoc.
      split; [reflexivity|]. split; [|split; [exact Hf|split]].
      * rewrite !concat_app in *. cbn [concat] in *. rewrite !app_nil_r in *. rewrite app_assoc, Hc. reflexivity.
      * rewrite app_length. cbn [length]. lia.
      * cbn [length]. rewrite Hg. lia.
Qed.
Lemma group3_join s : s <> [] ->
  exists gs, group3 s = join [44] gs /\ concat gs = s /\ Forall (fun g => g <> []) gs
    /\ gs <> [] /\ ((exists g, gs = [g]) <-> (length s <= 3)%nat).
Proof.
  intros Hs. destruct (group3_rev_join (rev s) 0 ltac:(lia)) as (gs & a & E & Hc & Hf & Hl & Hg).
  rewrite rev_involutive in Hc. rewrite rev_length in *.
  exists (gs ++ [a]). split; [exact E|]. split; [exact Hc|]. split; [|split].
  - apply Forall_app. split; [exact Hf|]. constructor; [|constructor]. intros ->. cbn in Hl. destruct s; [congruence|cbn in Hl; lia].
  - destruct gs; discriminate.
  - change (3 - 0)%nat with 3%nat in *. rewrite <- Hg. split.
    + intros (g & H). destruct gs as [|x gs]; [reflexivity|]. destruct gs; discriminate.
    + intros ->. exists a. reflexivity.
Qed.

(** ** texts: sign, groups, point, fraction *)
Definition seg (neg : bool) (G : pystr) (gs : list pystr) (P fp : pystr) : pystr :=
  sign_str neg ++ join G gs ++ P ++ fp.
Definition digs (s : pystr) : Prop := Forall (fun c => 48 <= c <= 57) s.
Definition fixes (f : N -> pystr) : Prop := (forall c, 48 <= c <= 57 -> f c = [c]) /\ f 45 = [45].
Lemma fix_digs f s : fixes f -> digs s -> flat_map f s = s.
Proof.
  intros [Hf _] H. induction H as [|c s Hc _ IH]; [reflexivity|]. cbn [flat_map]. rewrite Hf, IH by exact Hc. reflexivity.
Qed.
Lemma fix_join f G gs : fixes f -> Forall digs gs -> flat_map f (join G gs) = join (flat_map f G) gs.
Proof.
  intros Hf H. induction H as [|g gs Hg Hgs IH]; [reflexivity|].
  destruct gs as [|h gs]; cbn [join] in *; [apply fix_digs; assumption|].
  rewrite !flat_map_app, IH, (fix_digs f g Hf Hg). reflexivity.
Qed.
Lemma fix_seg f neg G gs P fp : fixes f -> Forall digs gs -> digs fp ->
  flat_map f (seg neg G gs P fp) = seg neg (flat_map f G) gs (flat_map f P) fp.
Proof.
  intros Hf Hg Hp. unfold seg. rewrite !flat_map_app, fix_join, (fix_digs f fp) by assumption.
  f_equal. destruct Hf as [_ H]. destruct neg; [|reflexivity].
  change (sign_str true) with [45]. cbn [flat_map]. rewrite H. reflexivity.
Qed.

Fixpoint iso (s : pystr) : bool :=
  match s with
  | a :: t => match t with b :: _ => (is_digit a || is_digit b) && iso t | [] => true end
  | [] => true
  end.
Lemma iso_contains x s : is_digit x = false -> iso s = true -> contains [x; x] s = false.
Proof.
  intros Hx. induction s as [|a t IH]; intros H; [reflexivity|].
  cbn [contains]. destruct t as [|b t].
  - cbn [startswith contains]. rewrite andb_false_r. reflexivity.
  - cbn [iso] in H. apply andb_true_iff in H. destruct H as [H1 H2].
    rewrite IH by exact H2. rewrite orb_false_r. cbn [startswith]. rewrite andb_true_r.
    destruct (N.eqb_spec x a) as [<-|]; [|reflexivity]. destruct (N.eqb_spec x b) as [<-|]; [|reflexivity].
    rewrite Hx in H1. discriminate.
Qed.
Lemma iso_digit a s : is_digit a = true -> iso s = true -> iso (a :: s) = true.
Proof. intros Ha Hs. cbn [iso]. destruct s; [reflexivity|]. rewrite Ha, Hs. reflexivity. Qed.
Lemma iso_digs ds s : digs ds -> iso s = true -> iso (ds ++ s) = true.
Proof.
  intros H Hs. induction H as [|c ds Hc _ IH]; [exact Hs|]. cbn [app]. apply iso_digit; [unfold is_digit; lia|exact IH].
Qed.
Lemma iso_sep a ds s : ds <> [] -> digs ds -> iso (ds ++ s) = true -> iso (a :: ds ++ s) = true.
Proof.
  intros Hn H Hs. destruct ds as [|c ds]; [congruence|]. inversion H as [|? ? Hc]; subst. cbn [app] in *.
  assert (E : is_digit c = true) by (unfold is_digit; lia). change (((is_digit a || is_digit c) && iso (c :: ds ++ s)) = true).
  rewrite E, orb_true_r, Hs. reflexivity.
Qed.
Definition short (s : pystr) : Prop := match s with _ :: _ :: _ => False | _ => True end.
Lemma iso_join G gs t : short G -> Forall digs gs -> Forall (fun g => g <> []) gs -> gs <> [] ->
  iso t = true -> iso (join G gs ++ t) = true /\ exists g0 r, join G gs = g0 ++ r /\ g0 <> [] /\ digs g0.
Proof.
  intros Hs Hd Hn Hne Ht. induction gs as [|g gs IH]; [congruence|]. inversion Hd; subst. inversion Hn; subst.
  destruct gs as [|h gs]; cbn [join].
  - split; [apply iso_digs; assumption|]. exists g, []. rewrite app_nil_r. auto.
  - destruct IH as [I (g0 & r & E & Hg0 & Hdg)]; try assumption; [discriminate|].
    split; [|eexists g, _; split; [reflexivity|auto]].
    rewrite <- app_assoc. apply iso_digs; [assumption|].
    destruct G as [|x [|]]; cbn in Hs; try contradiction; [exact I|].
    change (iso (x :: (join [x] (h :: gs) ++ t)) = true). rewrite E in I |- *. rewrite <- app_assoc in I |- *.
    apply iso_sep; assumption.
Qed.
Lemma iso_seg neg G gs P fp : short G -> short P -> Forall digs gs -> Forall (fun g => g <> []) gs -> gs <> [] -> digs fp ->
  iso (seg neg G gs P fp) = true.
Proof.
  intros HG HP Hd Hn Hne Hf. unfold seg.
  assert (Hfp : iso (P ++ fp) = true).
  { assert (I : iso fp = true) by (rewrite <- (app_nil_r fp); apply iso_digs; [exact Hf|reflexivity]).
    destruct P as [|x [|]]; cbn in HP; try contradiction; [exact I|].
    destruct fp as [|c fp]; [reflexivity|]. cbn [app]. change (x :: c :: fp) with (x :: [c] ++ fp).
    apply iso_sep; [discriminate| |exact I]. inversion Hf; subst. constructor; [assumption|constructor]. }
  destruct (iso_join G gs (P ++ fp) HG Hd Hn Hne Hfp) as [I (g0 & r & E & Hg0 & Hdg)].
  destruct neg; [|exact I]. change (sign_str true) with [45]. 
  change (iso (45 :: (join G gs ++ P ++ fp)) = true).
  rewrite E in I |- *. rewrite <- app_assoc in I |- *. apply iso_sep; assumption.
Qed.
Lemma seg_In neg G gs P fp x : In x (seg neg G gs P fp) -> Forall digs gs -> digs fp ->
  48 <= x <= 57 \/ x = 45 \/ (In x G /\ ~ exists g, gs = [g]) \/ In x P.
Proof.
  intros H Hd Hf. unfold seg in H. rewrite !in_app_iff in H.
  destruct H as [H|[H|[H|H]]].
  - destruct neg; [destruct H as [<-|[]]; auto|contradiction].
  - assert (J : 48 <= x <= 57 \/ In x G /\ ~ exists g, gs = [g]); [|tauto].
    clear - H Hd. induction Hd as [|g gs Hg Hd IH]; [contradiction|].
    destruct gs as [|h gs]; cbn [join] in H.
    + left. eapply Forall_forall in Hg; eassumption.
    + rewrite !in_app_iff in H. destruct H as [H|[H|H]].
      * left. eapply Forall_forall in Hg; [|exact H]; assumption.
      * right. split; [exact H|]. intros [g' E]. discriminate.
      * destruct (IH H) as [?|[? ?]]; [left; assumption|right]. split; [assumption|]. intros [g' E]. discriminate.
  - auto.
  - left. eapply Forall_forall in Hf; eassumption.
Qed.
Lemma join_single G g : join G [g] = g. Proof. reflexivity. Qed.
Lemma join_nil gs : join [] gs = concat gs.
Proof.
  induction gs as [|g gs IH]; [reflexivity|]. destruct gs as [|h gs]; cbn [join concat] in *; [symmetry; apply app_nil_r|].
  rewrite IH. reflexivity.
Qed.

(** ** reading *)
Lemma dec_of_comma udigit neg d ds rest :
  digs (d :: ds) -> Forall (fun c => c < 128 /\ c <> 95 /\ is_space c = false) rest ->
  dec_of_str udigit (sign_str neg ++ (d :: ds) ++ 44 :: rest) = None.
Proof.
  intros Hd Hr. set (t := sign_str neg ++ (d :: ds) ++ 44 :: rest).
  assert (Hall : Forall (fun c => c < 128 /\ c <> 95 /\ is_space c = false) t).
  { unfold t. apply Forall_app. split; [destruct neg; repeat constructor; vm_compute; discriminate|].
    apply Forall_app. split; [|constructor; [split; [|split]; vm_compute; congruence|exact Hr]].
    eapply Forall_impl; [|exact Hd]. cbn. intros a Ha. unfold is_space. lia. }
  assert (Hto : to_ascii udigit t = Some t).
  { unfold to_ascii. unfold strip. rewrite strip_id by (intros c Hc; eapply Forall_forall in Hall; [|exact Hc]; tauto).
    clear - Hall. induction Hall as [|c t (H1 & H2 & H3) _ IH]; [reflexivity|]. cbn [fold_right]. rewrite IH.
    destruct (N.eqb_spec c 95); [contradiction|]. destruct (N.ltb_spec c 128); [reflexivity|lia]. }
  unfold dec_of_str. rewrite Hto.
  assert (Hp : forall n, parse_unsigned n ((d :: ds) ++ 44 :: rest) = None).
  { intros n. unfold parse_unsigned. inversion Hd as [|? ? Hd1 Hd2]; subst.
    assert (Hlow : exists x xs, ascii_lower ((d :: ds) ++ 44 :: rest) = x :: xs /\ x = d).
    { cbn [app ascii_lower map]. eexists _, _. split; [reflexivity|]. unfold lower1, is_upper.
      destruct ((65 <=? d) && (d <=? 90)) eqn:E; [lia|reflexivity]. }
    destruct Hlow as (x & xs & E & ->). rewrite E.
    assert (Hne : forall w ws, (w < 48 \/ 57 < w) -> str_eqb (d :: xs) (w :: ws) = false /\ startswith (w :: ws) (d :: xs) = false).
    { intros w ws Hw. split; [apply str_eqb_neq; intros X; injection X as X _; lia|].
      cbn [startswith]. destruct (N.eqb_spec w d); [lia|reflexivity]. }
    change (lit "inf") with (105 :: lit "nf"). change (lit "infinity") with (105 :: lit "nfinity").
    change (lit "nan") with (110 :: lit "an"). change (lit "snan") with (115 :: lit "nan").
    rewrite !(proj1 (Hne 105 _ ltac:(lia))), (proj2 (Hne 110 _ ltac:(lia))), (proj2 (Hne 115 _ ltac:(lia))).
    cbn [orb andb]. rewrite span_digits_app by (try apply Forall_digits; try exact Hd; reflexivity).
    cbn [fst snd]. reflexivity. }
  destruct neg; cbn [app sign_str t]; unfold t.
  - change (sign_str true) with [45]. cbn [app]. cbn [N.eqb Pos.eqb]. apply Hp.
  - change (sign_str false) with (@nil N). cbn [app]. inversion Hd; subst.
    destruct (N.eqb_spec d 43); [lia|]. destruct (N.eqb_spec d 45); [lia|]. apply Hp.
Qed.

Lemma dec_parts_len c e : printed_plainly c e ->
  length (fst (dec_parts c e)) = Z.to_nat (Z.max 1 (e + Z.of_nat (ndigits c))).
Proof.
  intros (He & Hl). unfold ndigits in *. unfold dec_parts.
  set (int := digits_of c) in *. set (len := Z.of_nat (length int)) in *.
  assert (Hcond : Z.leb e 0 && Z.ltb (-6) (e + len) = true) by lia. rewrite Hcond. cbn [fst].
  destruct (Z.ltb_spec (e + len) 0); [cbn [length]; rewrite Z.max_l by lia; reflexivity|].
  destruct (Z.ltb_spec len (e + len)); [lia|].
  pose proof (firstn_length (Z.to_nat (e + len)) int) as F.
  destruct (firstn (Z.to_nat (e + len)) int) as [|x xs] eqn:E; cbn [length] in *.
  - assert (int <> []) by apply digits_of_nonempty. destruct int; [congruence|]. unfold len in *. cbn [length] in *.
    rewrite Z.max_l by lia. reflexivity.
  - rewrite F. unfold len in *. lia.
Qed.

Section U.
Variable udigit : N -> option N.
Variable babel : num -> pystr -> res pystr.

Definition rep (o : option N) (y : pystr) : N -> pystr :=
  fun c => match o with Some x => if c =? x then y else [c] | None => [c] end.
Lemma fixes_rep o y : (forall x, o = Some x -> sep_char x) -> fixes (rep o y).
Proof.
  intros H. split; [intros c Hc|]; unfold rep; destruct o as [x|]; try reflexivity;
  destruct (H x eq_refl) as (H1 & H2 & _).
  - destruct (N.eqb_spec c x) as [->|]; [contradiction|reflexivity].
  - destruct (N.eqb_spec 45 x) as [<-|]; [contradiction|reflexivity].
Qed.
Lemma flat_map_single (s : pystr) : flat_map (fun c => [c]) s = s.
Proof. induction s as [|c s IH]; cbn; [reflexivity|]. rewrite IH. reflexivity. Qed.

(** what to_python does with a text, for single-character separators *)
Lemma read_char_fmt g d neg G gs P fp :
  (forall x, g = Some x -> sep_char x) -> (forall x, d = Some x -> sep_char x) ->
  Forall digs gs -> Forall (fun x => x <> []) gs -> gs <> [] -> digs fp -> short G -> short P ->
  (forall x, In x G \/ In x P -> x <> 101 /\ x <> 69) ->
  let G2 := flat_map (rep d [46]) (flat_map (rep g []) G) in
  let P2 := flat_map (rep d [46]) (flat_map (rep g []) P) in
  (forall x, In x G2 \/ In x P2 -> x <> 37 /\ x <> 8240) ->
  decimal_to_python udigit (char_fmt g d) (seg neg G gs P fp) = raw_read udigit (seg neg G2 gs P2 fp).
Proof.
  intros Hg Hd Hgs Hn Hne Hfp HG HP Hx G2 P2 H2.
  unfold decimal_to_python.
  assert (He : forall y, y = 101 \/ y = 69 -> ~ In y (seg neg G gs P fp)).
  { intros y Hy Hin. apply seg_In in Hin; try assumption.
    destruct Hin as [?|[?|[[Hin _]|Hin]]]; [lia|lia| |]; destruct (Hx y) as (? & ?); auto; lia. }
  unfold has_e. rewrite !char_mem_absent by (apply He; auto). cbn [orb].
  assert (Hcont : contains (or_str (nf_group (char_fmt g d)) (lit ",") ++ or_str (nf_group (char_fmt g d)) (lit ","))
                   (seg neg G gs P fp) = false).
  { destruct g as [g|]; cbn [char_fmt nf_group option_map or_str truthy_str].
    - apply iso_contains; [|apply iso_seg; assumption]. destruct (Hg g eq_refl) as (H & _). unfold is_digit. lia.
    - change (lit "," ++ lit ",") with [44; 44]. apply iso_contains; [reflexivity|apply iso_seg; assumption]. }
  rewrite Hcont. clear Hcont.
  assert (E1 : truthy_str (nf_pattern (char_fmt g d)) = None) by reflexivity. rewrite E1. cbn [bind negb].
  assert (Hj : exists x xs, join G gs = x :: xs /\ 48 <= x <= 57).
  { destruct gs as [|[|x xs] gs']; [congruence|inversion Hn; congruence|].
    inversion Hgs as [|? ? Hd1]; subst. inversion Hd1; subst. destruct gs'; cbn [join app]; eauto. }
  assert (Hns : str_eqb (seg neg G gs P fp) (lit "INF") = false /\ str_eqb (seg neg G gs P fp) (lit "-INF") = false
                /\ str_eqb (seg neg G gs P fp) (lit "NaN") = false).
  { destruct Hj as (x & xs & E & Hx0). unfold seg. rewrite E.
    repeat split; apply str_eqb_neq; intros X; destruct neg; cbn in X; injection X; intros; lia. }
  destruct Hns as (N1 & N2 & N3). rewrite N1, N2, N3.
  assert (EG : match truthy_str (match nf_group (char_fmt g d) with None => if pat_has 44 (nf_pattern (char_fmt g d)) then Some (lit ",") else None | g => g end)
               with Some g => replace g [] (seg neg G gs P fp) | None => seg neg G gs P fp end
               = flat_map (rep g []) (seg neg G gs P fp)).
  { destruct g as [g|]; cbn; [apply replace_one|]. unfold rep. symmetry. apply flat_map_single. }
  rewrite EG. clear EG. rewrite fix_seg by (try assumption; apply fixes_rep; assumption).
  set (T1 := seg neg (flat_map (rep g []) G) gs (flat_map (rep g []) P) fp).
  assert (ED : match truthy_str (match nf_decimal (char_fmt g d) with None => if pat_has 46 (nf_pattern (char_fmt g d)) then Some (lit ".") else None | g => g end)
               with Some d => if str_eqb d (lit ".") then T1 else replace d (lit ".") T1 | None => T1 end
               = flat_map (rep d [46]) T1).
  { destruct d as [d|]; cbn [char_fmt nf_decimal option_map truthy_str nf_pattern pat_has].
    - destruct (str_eqb [d] (lit ".")) eqn:E.
      + apply str_eqb_eq in E. injection E as ->. symmetry. unfold rep.
        clear. induction T1 as [|c s IH]; [reflexivity|]. cbn [flat_map]. rewrite IH.
        destruct (N.eqb_spec c 46) as [->|]; reflexivity.
      + apply replace_one.
    - unfold rep. symmetry. apply flat_map_single. }
  rewrite ED. clear ED. unfold T1. rewrite fix_seg by (try assumption; apply fixes_rep; assumption).
  fold G2 P2.
  assert (Hp : forall y, y = 37 \/ y = 8240 -> ~ In y (seg neg G2 gs P2 fp)).
  { intros y Hy Hin. apply seg_In in Hin; try assumption.
    destruct Hin as [?|[?|[[Hin _]|Hin]]]; [lia|lia| |]; destruct (H2 y) as (? & ?); auto; lia. }
  rewrite !char_mem_absent by (apply Hp; auto). cbn [fst snd]. reflexivity.
Qed.

Definition sub_sep (g d : option N) (c : N) : pystr :=
  if char_mem c (sep_chars d g) then (if c =? 44 then opt_list g else if c =? 46 then opt_list d else []) else [c].
Lemma fixes_sub g d : (forall x, g = Some x -> sep_char x) -> (forall x, d = Some x -> sep_char x) -> fixes (sub_sep g d).
Proof.
  intros Hg Hd. assert (H : forall c, (48 <= c <= 57 \/ c = 45) -> sub_sep g d c = [c]).
  { intros c Hc. unfold sub_sep. rewrite char_mem_absent; [reflexivity|].
    intros Hin. unfold sep_chars in Hin. apply in_app_or in Hin.
    destruct Hin as [Hin|Hin]; [destruct d as [x|]|destruct g as [x|]]; try contradiction; destruct Hin as [<-|[]].
    - destruct (Hd x eq_refl) as (H1 & H2 & _). tauto.
    - destruct (Hg x eq_refl) as (H1 & H2 & _). tauto. }
  split; [intros c Hc|]; apply H; auto.
Qed.

Lemma write_char_fmt g d neg c e :
  (forall x, g = Some x -> sep_char x) -> (forall x, d = Some x -> sep_char x) -> printed_plainly c e ->
  exists gs fp, decimal_to_string babel (char_fmt g d) (NDec (Fin neg c e)) =
      Ok (seg neg (sub_sep g d 44) gs (if has_point fp then sub_sep g d 46 else []) fp)
    /\ Forall digs gs /\ Forall (fun x => x <> []) gs /\ gs <> [] /\ digs fp
    /\ val_digits (concat gs ++ fp) = c /\ Z.of_nat (length fp) = (- e)%Z
    /\ ((exists x, gs = [x]) <-> g = None \/ (e + Z.of_nat (ndigits c) <= 3)%Z).
Proof.
  intros Hg Hd Hp. destruct (dec_parts_plain c e Hp) as (ip & fp & E & (Hok & _ & _) & Hne & Hv & Hl).
  apply Forall_app in Hok. destruct Hok as [Hip Hfp].
  assert (Hlen : (length ip <= 3)%nat <-> (e + Z.of_nat (ndigits c) <= 3)%Z).
  { pose proof (dec_parts_len c e Hp) as L. rewrite E in L. cbn [fst] in L. lia. }
  assert (HX : exists gs, (match g with None => ip | Some _ => group3 ip end) = join [44] gs
     /\ concat gs = ip /\ Forall (fun g => g <> []) gs /\ gs <> []
     /\ ((exists x, gs = [x]) <-> g = None \/ (e + Z.of_nat (ndigits c) <= 3)%Z)).
  { destruct g as [g|].
    - destruct (group3_join ip Hne) as (gs & E1 & E2 & E3 & E4 & E5). exists gs. repeat (split; [assumption|]).
      rewrite E5, Hlen. split; [auto|]. intros [?|?]; [discriminate|assumption].
    - exists [ip]. cbn. rewrite app_nil_r. repeat split; auto; try discriminate.
      + intros _. eauto. }
  destruct HX as (gs & EX & Hc & Hn & Hgs & Hone).
  assert (Hdg : Forall digs gs).
  { rewrite <- Hc in Hip. clear - Hip. induction gs as [|x gs IH]; [constructor|]. cbn in Hip. apply Forall_app in Hip.
    constructor; [apply Hip|apply IH, Hip]. }
  exists gs, fp. split; [|rewrite Hc; repeat split; try assumption; apply Hone].
  unfold decimal_to_string. cbn [num_format].
  destruct (fin_not_special udigit babel neg c e) as (H1 & H2 & H3). rewrite H1, H2, H3.
  assert (E1 : truthy_str (nf_pattern (char_fmt g d)) = None) by reflexivity. rewrite E1.
  cbn [num_neg dec_neg bind dec_format].
  assert (Etxt : sign_str neg ++ (if match nf_group (char_fmt g d) with None => false | _ => true end
       then group3 (fst (dec_parts c e)) else fst (dec_parts c e)) ++ snd (dec_parts c e)
     = seg neg [44] gs (if has_point fp then [46] else []) fp).
  { rewrite E. cbn [fst snd]. unfold seg. rewrite <- EX. destruct g; cbn [char_fmt nf_group option_map];
    destruct fp; reflexivity. }
  rewrite Etxt. clear Etxt.
  assert (He : has_e (seg neg [44] gs (if has_point fp then [46] else []) fp) = false).
  { unfold has_e. assert (H : forall y, y = 101 \/ y = 69 -> ~ In y (seg neg [44] gs (if has_point fp then [46] else []) fp)).
    { intros y Hy Hin. apply seg_In in Hin; try assumption.
      destruct Hin as [?|[?|[[[<-|[]] _]|Hin]]]; [lia|lia|lia|]. destruct (has_point fp); [destruct Hin as [<-|[]]; lia|contradiction]. }
    rewrite !char_mem_absent by (apply H; auto). reflexivity. }
  rewrite He.
  assert (Hsub : seg neg (sub_sep g d 44) gs (if has_point fp then sub_sep g d 46 else []) fp
     = flat_map (sub_sep g d) (seg neg [44] gs (if has_point fp then [46] else []) fp)).
  { rewrite fix_seg by (try assumption; apply fixes_sub; assumption). f_equal; [cbn [flat_map]; rewrite app_nil_r; reflexivity|].
    destruct (has_point fp); cbn [flat_map]; [rewrite app_nil_r|]; reflexivity. }
  rewrite Hsub.
  destruct d as [d|], g as [g|]; cbn [char_fmt nf_decimal nf_group option_map truthy_str]; try reflexivity.
  unfold sub_sep. cbn. rewrite flat_map_single. reflexivity.
Qed.

Lemma in_seps x g d : In x (sep_chars g d) <-> g = Some x \/ d = Some x.
Proof.
  unfold sep_chars. rewrite in_app_iff. destruct g as [g|], d as [d|]; cbn; split; intros H;
  repeat match goal with H : _ \/ _ |- _ => destruct H end; try contradiction; try discriminate; subst; auto;
  match goal with H : Some _ = Some _ |- _ => injection H as -> end; auto.
Qed.
Lemma sub_in g d x : In x (sep_chars g d) ->
  sub_sep g d x = if x =? 44 then opt_list g else if x =? 46 then opt_list d else [].
Proof.
  intros H. unfold sub_sep. assert (E : char_mem x (sep_chars d g) = true).
  { apply char_mem_In. apply in_seps. apply in_seps in H. tauto. }
  rewrite E. reflexivity.
Qed.
Lemma sub_out g d x : ~ In x (sep_chars g d) -> sub_sep g d x = [x].
Proof.
  intros H. unfold sub_sep. rewrite char_mem_absent; [reflexivity|]. rewrite in_seps in *. tauto.
Qed.
Lemma rep_out o y x : o <> Some x -> rep o y x = [x].
Proof. intros H. unfold rep. destruct o as [z|]; [|reflexivity]. destruct (N.eqb_spec x z) as [->|]; [congruence|reflexivity]. Qed.
Lemma rep_in y x : rep (Some x) y x = y.
Proof. unfold rep. rewrite N.eqb_refl. reflexivity. Qed.
Definition thru (g d : option N) (s : pystr) : pystr := flat_map (rep d [46]) (flat_map (rep g []) s).
Lemma thru_comma_in g d : In 44 (sep_chars g d) -> thru g d (sub_sep g d 44) = [].
Proof.
  intros H. rewrite sub_in by exact H. change (44 =? 44) with true. cbv iota. unfold thru.
  destruct g as [g|]; [|reflexivity]. cbn [opt_list flat_map]. rewrite rep_in. reflexivity.
Qed.
Lemma thru_comma_out g d : ~ In 44 (sep_chars g d) -> thru g d (sub_sep g d 44) = [44].
Proof.
  intros H. rewrite sub_out by exact H. rewrite in_seps in H. unfold thru. cbn [flat_map]. rewrite app_nil_r.
  rewrite (rep_out g) by tauto. cbn [flat_map]. rewrite app_nil_r. apply rep_out. tauto.
Qed.
Lemma thru_point_ok g d : ~ In 46 (sep_chars g d) \/ (d <> None /\ d <> g) -> thru g d (sub_sep g d 46) = [46].
Proof.
  intros H. destruct (in_dec N.eq_dec 46 (sep_chars g d)) as [Hi|Hi].
  - destruct H as [?|[H1 H2]]; [contradiction|]. rewrite sub_in by exact Hi.
    change (46 =? 44) with false. change (46 =? 46) with true. cbv iota.
    destruct d as [d|]; [|congruence]. unfold thru. cbn [opt_list flat_map]. rewrite app_nil_r.
    rewrite (rep_out g) by congruence. cbn [flat_map]. rewrite rep_in. reflexivity.
  - rewrite sub_out by exact Hi. rewrite in_seps in Hi. unfold thru. cbn [flat_map]. rewrite app_nil_r.
    rewrite (rep_out g) by tauto. cbn [flat_map]. rewrite app_nil_r. apply rep_out. tauto.
Qed.
Lemma thru_point_bad g d : In 46 (sep_chars g d) -> d = None \/ d = g -> thru g d (sub_sep g d 46) = [].
Proof.
  intros Hi H. rewrite sub_in by exact Hi. change (46 =? 44) with false. change (46 =? 46) with true. cbv iota.
  destruct H as [->| ->]; [reflexivity|]. destruct g as [g|]; [|reflexivity].
  unfold thru. cbn [opt_list flat_map]. rewrite rep_in. reflexivity.
Qed.
Lemma sub_short g d x : short (sub_sep g d x).
Proof.
  unfold sub_sep. destruct (char_mem x _); [|exact I]. destruct (x =? 44); [destruct g; exact I|].
  destruct (x =? 46); [destruct d; exact I|exact I].
Qed.
Lemma sub_noe g d x y : (forall x, g = Some x -> sep_char x) -> (forall x, d = Some x -> sep_char x) ->
  x = 44 \/ x = 46 -> In y (sub_sep g d x) -> y <> 101 /\ y <> 69.
Proof.
  intros Hg Hd Hx Hin. unfold sub_sep in Hin. destruct (char_mem x _).
  - destruct (x =? 44); [destruct g as [g|]; [|contradiction]; destruct Hin as [<-|[]]; destruct (Hg g eq_refl); tauto|].
    destruct (x =? 46); [|contradiction].
    destruct d as [d|]; [|contradiction]; destruct Hin as [<-|[]]; destruct (Hd d eq_refl); tauto.
  - destruct Hin as [<-|[]]. lia.
Qed.
Lemma join_cases G gs : (exists x, gs = [x]) \/ G = [] -> join G gs = concat gs.
Proof. intros [[x ->]| ->]; [cbn; symmetry; apply app_nil_r|apply join_nil]. Qed.

Lemma raw_numeral neg ip (point : bool) fp : digs (ip ++ fp) -> ip <> [] -> (point = false -> fp = []) ->
  fits (val_digits (ip ++ fp)) ->
  raw_read udigit (sign_str neg ++ ip ++ (if point then [46] else []) ++ fp)
  = Ok (Fin neg (val_digits (ip ++ fp)) (- Z.of_nat (length fp))).
Proof.
  intros Hd Hne Hp Hf.
  assert (E : sign_str neg ++ ip ++ (if point then [46] else []) ++ fp = numeral neg false ip point fp).
  { unfold numeral. destruct neg, point; try reflexivity; rewrite (Hp eq_refl); reflexivity. }
  assert (Hok : numeral_ok ip point fp).
  { split; [exact Hd|]. split; [destruct ip; [congruence|discriminate]|exact Hp]. }
  rewrite E, <- read_nofmt by (apply numeral_chars, Hok). apply read_numeral; assumption.
Qed.

Theorem group_decimal_chars g d neg c e :
  (forall x, g = Some x -> sep_char x) -> (forall x, d = Some x -> sep_char x) ->
  printed_plainly c e -> fits c ->
  exists t, decimal_to_string babel (char_fmt g d) (NDec (Fin neg c e)) = Ok t
    /\ (commas_ok g d c e -> point_ok g d e -> decimal_to_python udigit (char_fmt g d) t = Ok (Fin neg c e))
    /\ (~ commas_ok g d c e -> decimal_to_python udigit (char_fmt g d) t = Err ValueError)
    /\ (commas_ok g d c e -> ~ point_ok g d e -> decimal_to_python udigit (char_fmt g d) t = Ok (Fin neg c 0)).
Proof.
  intros Hg Hd Hp Hf. destruct (write_char_fmt g d neg c e Hg Hd Hp) as (gs & fp & Ht & Hdg & Hn & Hgs & Hfp & Hv & Hl & Hone).
  eexists; split; [exact Ht|].
  set (G := sub_sep g d 44) in *. set (P := if has_point fp then sub_sep g d 46 else []) in *.
  assert (Hread : decimal_to_python udigit (char_fmt g d) (seg neg G gs P fp)
                  = raw_read udigit (seg neg (thru g d G) gs (thru g d P) fp)).
  { apply read_char_fmt; try assumption.
    - apply sub_short.
    - unfold P. destruct (has_point fp); [apply sub_short|exact I].
    - intros x [Hx|Hx].
      + apply (sub_noe g d 44 x Hg Hd); auto.
      + unfold P in Hx. destruct (has_point fp); [|contradiction]. apply (sub_noe g d 46 x Hg Hd); auto.
    - fold (thru g d G). fold (thru g d P). intros x [Hx|Hx].
      + unfold G in Hx. destruct (in_dec N.eq_dec 44 (sep_chars g d)) as [Hi|Hi].
        * rewrite thru_comma_in in Hx by exact Hi. contradiction.
        * rewrite thru_comma_out in Hx by exact Hi. destruct Hx as [<-|[]]. lia.
      + unfold P in Hx. destruct (has_point fp); [|contradiction].
        destruct (in_dec N.eq_dec 46 (sep_chars g d)) as [Hi|Hi].
        * assert (D : {d = None \/ d = g} + {~ (d = None \/ d = g)}).
          { clear. destruct d, g; try (left; left; congruence); try (destruct (N.eq_dec n n0); [left; right; congruence|right; intros [?|?]; congruence]); try (right; intros [?|?]; congruence). }
          destruct D as [D|D].
          -- rewrite thru_point_bad in Hx by assumption. contradiction.
          -- rewrite thru_point_ok in Hx by tauto. destruct Hx as [<-|[]]. lia.
        * rewrite thru_point_ok in Hx by tauto. destruct Hx as [<-|[]]. lia. }
  rewrite Hread. clear Hread Ht.
  assert (Hcat : digs (concat gs) /\ concat gs <> []).
  { split.
    - clear - Hdg. induction Hdg; cbn; [constructor|]. apply Forall_app. auto.
    - destruct gs as [|x gs]; [congruence|]. inversion Hn; subst. cbn. destruct x; [congruence|discriminate]. }
  destruct Hcat as [Hcd Hcn].
  assert (Hco : commas_ok g d c e -> join (thru g d G) gs = concat gs).
  { intros [H|[H|H]].
    - apply join_cases. left. apply Hone. auto.
    - apply join_cases. right. apply thru_comma_in, H.
    - apply join_cases. left. apply Hone. auto. }
  split; [|split].
  - intros C Pok. unfold seg. rewrite (Hco C).
    assert (EP : thru g d P = if has_point fp then [46] else []).
    { unfold P. destruct (has_point fp) eqn:E; [|reflexivity]. apply thru_point_ok.
      destruct Pok as [?|[?|?]]; auto. destruct fp; [discriminate|cbn in Hl; lia]. }
    rewrite EP. rewrite raw_numeral; try assumption.
    + rewrite Hv. do 2 f_equal. lia.
    + apply Forall_app. auto.
    + destruct fp; [reflexivity|discriminate].
    + rewrite Hv. exact Hf.
  - intros C. unfold commas_ok in C.
    assert (EG : thru g d G = [44]) by (apply thru_comma_out; tauto). rewrite EG.
    assert (H1 : ~ exists x, gs = [x]) by (rewrite Hone; tauto).
    destruct gs as [|g1 [|g2 gs]]; [congruence|exfalso; apply H1; eauto|].
    inversion Hdg as [|? ? D1 D2]; subst. inversion Hn as [|? ? N1 N2]; subst.
    destruct g1 as [|x xs]; [congruence|].
    unfold raw_read.
    assert (Eass : seg neg [44] ((x :: xs) :: g2 :: gs) (thru g d P) fp
      = sign_str neg ++ (x :: xs) ++ 44 :: (join [44] (g2 :: gs) ++ thru g d P ++ fp)).
    { unfold seg. change (join [44] ((x :: xs) :: g2 :: gs)) with ((x :: xs) ++ 44 :: join [44] (g2 :: gs)).
      rewrite <- !app_assoc. reflexivity. }
unfold pystr in Eass |- *.     rewrite Eass, dec_of_comma; [reflexivity|exact D1|].
    apply Forall_forall. intros y Hy.
    assert (Hy' : In y (seg false [44] (g2 :: gs) (thru g d P) fp)) by (unfold seg; cbn [sign_str app]; exact Hy).
    apply seg_In in Hy'; try assumption.
    destruct Hy' as [?|[?|[[[<-|[]] _]|Hin]]]; [unfold is_space; lia|unfold is_space; lia|vm_compute; split; [|split]; congruence|].
    assert (y = 46) as ->; [|vm_compute; split; [|split]; congruence].
    unfold P in Hin. destruct (has_point fp); [|contradiction].
    destruct (in_dec N.eq_dec 46 (sep_chars g d)) as [Hi|Hi].
    + assert (D : {d = None \/ d = g} + {~ (d = None \/ d = g)}) by (clear; destruct d, g; try (left; left; congruence); try (destruct (N.eq_dec n n0); [left; right; congruence|right; intros [?|?]; congruence]); try (right; intros [?|?]; congruence)).
      destruct D as [D|D].
      * rewrite thru_point_bad in Hin by assumption. contradiction.
      * rewrite thru_point_ok in Hin by tauto. destruct Hin as [<-|[]]. reflexivity.
    + rewrite thru_point_ok in Hin by tauto. destruct Hin as [<-|[]]. reflexivity.
  - intros C Pbad. unfold seg. rewrite (Hco C). unfold point_ok in Pbad.
    assert (Hfp' : has_point fp = true) by (destruct fp; [cbn in Hl; exfalso; lia|reflexivity]).
    assert (EP : thru g d P = []).
    { unfold P. rewrite Hfp'. destruct (in_dec N.eq_dec 46 (sep_chars g d)) as [Hi|Hi]; [|tauto].
      apply thru_point_bad; [exact Hi|]. destruct d as [d|]; [|auto]. right.
      destruct g as [g|]; [|exfalso; apply Pbad; right; left; split; discriminate].
      destruct (N.eq_dec d g) as [->|]; [reflexivity|]. exfalso. apply Pbad. right. left. split; congruence. }
    rewrite EP. cbn [app].
    pose proof (raw_numeral neg (concat gs ++ fp) false []) as R. cbn [app] in R. rewrite !app_nil_r in R.
    rewrite R; try auto.
    + rewrite Hv. reflexivity.
    + apply Forall_app. auto.
    + destruct (concat gs); [congruence|discriminate].
    + rewrite Hv. exact Hf.
Qed.
End U.
