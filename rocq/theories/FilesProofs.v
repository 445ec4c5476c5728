(** Lemmas on paths for C55. *)
From Verif Require Import PyStr PyCsv Dsv Json Column Schema Table Zip Locate NamesProofs PatternProofs Files FilesSpec.

Lemma str_eqb_iff_false a b : a <> b -> str_eqb a b = false.
Proof. intros H. destruct (str_eqb a b) eqn:E; [apply str_eqb_eq in E; contradiction|reflexivity]. Qed.

Lemma component_keep l : Forall component l -> filter (fun c => negb (str_eqb c [] || str_eqb c (lit "."))) l = l.
Proof.
  induction 1 as [|c l (A & B & _) _ IH]; [reflexivity|]. cbn [filter].
  rewrite (str_eqb_iff_false c []) by exact A. rewrite (str_eqb_iff_false c (lit ".")) by exact B. cbn [orb negb]. rewrite IH. reflexivity.
Qed.
Lemma component_slash l : Forall component l -> forall c, In c l -> ~ In 47 c.
Proof. intros H c I. apply (proj1 (Forall_forall _ _) H) in I. apply I. Qed.
Lemma split_components l : Forall component l -> l <> [] -> split (lit "/") (join (lit "/") l) = l.
Proof. intros H N. apply (split_join1 47); [exact N|apply component_slash; exact H]. Qed.
Lemma parts_join l : Forall component l -> parts (join (lit "/") l) = l.
Proof.
  intros H. unfold parts. destruct l as [|c l]; [reflexivity|]. rewrite split_components by (assumption || discriminate). apply component_keep; exact H.
Qed.
Lemma split_slash s : split (lit "/") (lit "/" ++ s) = [] :: split (lit "/") s.
Proof. reflexivity. Qed.
Lemma parts_abs s : parts (lit "/" ++ s) = parts s.
Proof. unfold parts. rewrite split_slash. reflexivity. Qed.
Lemma abs_join l : Forall component l -> is_abs (join (lit "/") l) = false.
Proof.
  intros H. destruct l as [|c l]; [reflexivity|]. inversion H as [|c' l' (A & _ & _ & Sl) _]; subst. destruct c as [|x c]; [contradiction|].
  assert (E : exists r, join (lit "/") ((x :: c) :: l) = x :: r) by (destruct l; cbn [join app]; eexists; reflexivity). destruct E as (r & E). unfold is_abs. transitivity (startswith (lit "/") (x :: r)); [f_equal; exact E|]. change (startswith (lit "/") (x :: r)) with ((47 =? x) && true). destruct (N.eqb_spec 47 x) as [<-|]; [exfalso; apply Sl; left; reflexivity|reflexivity].
Qed.
Lemma parts_path a l : Forall component l -> parts (path_str a l) = l.
Proof.
  intros H. unfold path_str. destruct a; [rewrite parts_abs; apply parts_join; exact H|]. destruct l as [|c l]; [reflexivity|]. apply parts_join; exact H.
Qed.
Lemma abs_path a l : Forall component l -> is_abs (path_str a l) = a.
Proof. intros H. unfold path_str. destruct a; [reflexivity|]. destruct l as [|c l]; [reflexivity|]. apply abs_join; exact H. Qed.
Lemma path_inj a l a' l' : Forall component l -> Forall component l' -> path_str a l = path_str a' l' -> a = a' /\ l = l'.
Proof. intros H H' E. split; [rewrite <- (abs_path a l H), E; apply abs_path; exact H'|rewrite <- (parts_path a l H), E; apply parts_path; exact H']. Qed.
Lemma norm_path a l : Forall component l -> norm (path_str a l) = path_str a l.
Proof. intros H. unfold norm. rewrite abs_path, parts_path by exact H. reflexivity. Qed.
Lemma plain_dir_path d : plain_dir d <-> exists a l, Forall component l /\ d = path_str a l.
Proof.
  split.
  - intros (l & H & [->| ->]); [exists true, l|exists false, l]; split; try exact H; reflexivity.
  - intros (a & l & H & ->); destruct a; exists l; split; try exact H; [left|right]; reflexivity.
Qed.
Lemma plain_path_path u : plain_path u -> exists l, l <> [] /\ Forall component l /\ u = path_str false l.
Proof. intros (l & N & H & ->). exists l. repeat split; try assumption. destruct l; [contradiction|reflexivity]. Qed.
Lemma plain_rel u : plain_path u -> is_abs u = false.
Proof. intros (l & N & H & ->). apply abs_join; exact H. Qed.
Lemma join_app_ne (l l' : list pystr) : l <> [] -> l' <> [] -> join (lit "/") (l ++ l') = join (lit "/") l ++ lit "/" ++ join (lit "/") l'.
Proof.
  induction l as [|c l IH]; [contradiction|]. intros _ N'. destruct l as [|c2 l].
  - cbn [app]. destruct l' as [|x l']; [contradiction|]. reflexivity.
  - change ((c :: c2 :: l) ++ l') with (c :: (c2 :: l) ++ l'). assert (X : exists y r, (c2 :: l) ++ l' = y :: r) by (eexists; eexists; reflexivity). destruct X as (y & r & X).
    assert (J : join (lit "/") (c :: (c2 :: l) ++ l') = c ++ lit "/" ++ join (lit "/") ((c2 :: l) ++ l')) by (rewrite X; reflexivity).
    rewrite J, IH by (discriminate || assumption). change (join (lit "/") (c :: c2 :: l)) with (c ++ lit "/" ++ join (lit "/") (c2 :: l)). rewrite <- !app_assoc. reflexivity.
Qed.
Lemma dot_path a l : Forall component l -> path_str a l = lit "." -> a = false /\ l = [].
Proof. intros H E. assert (X : path_str a l = path_str false []) by exact E. apply path_inj in X; [exact X|exact H|constructor]. Qed.
Lemma root_path a l : Forall component l -> path_str a l = lit "/" -> a = true /\ l = [].
Proof. intros H E. assert (X : path_str a l = path_str true []) by exact E. apply path_inj in X; [exact X|exact H|constructor]. Qed.
Lemma in_dir_path a l u : Forall component l -> u <> [] -> Forall component u -> in_dir (path_str a l) (path_str false u) = path_str a (l ++ u).
Proof.
  intros H N U. unfold in_dir. destruct (str_eqb (path_str a l) (lit ".")) eqn:D; [apply str_eqb_eq in D; apply dot_path in D; [|exact H]; destruct D as [-> ->]; reflexivity|].
  destruct (str_eqb (path_str a l) (lit "/")) eqn:R; [apply str_eqb_eq in R; apply root_path in R; [|exact H]; destruct R as [-> ->]; unfold path_str; destruct u; [contradiction|reflexivity]|].
  assert (Nl : l <> []) by (intros ->; destruct a; [vm_compute in R; discriminate R|vm_compute in D; discriminate D]).
  unfold path_str. destruct a.
  - rewrite join_app_ne by assumption. destruct u; [contradiction|]. rewrite <- !app_assoc. reflexivity.
  - destruct l as [|c l]; [contradiction|]. destruct u as [|x u]; [contradiction|]. cbn [app]. change (c :: l ++ x :: u) with ((c :: l) ++ (x :: u)). rewrite join_app_ne by discriminate. reflexivity.
Qed.
Lemma joinpath_in d u : plain_dir d -> plain_path u -> joinpath d u = in_dir d u.
Proof.
  intros D U. apply plain_dir_path in D. destruct D as (a & l & H & ->). apply plain_path_path in U. destruct U as (k & N & K & ->).
  rewrite in_dir_path by assumption. unfold joinpath. rewrite !abs_path, !parts_path by assumption. reflexivity.
Qed.
Lemma plain_one n : component n -> plain_path n.
Proof. intros H. exists [n]. split; [discriminate|]. split; [constructor; [exact H|constructor]|reflexivity]. Qed.
Lemma parent_in d n : plain_dir d -> component n -> parent (in_dir d n) = d.
Proof.
  intros D C. apply plain_dir_path in D. destruct D as (a & l & H & ->). assert (K : Forall component [n]) by (constructor; [exact C|constructor]).
  change n with (path_str false [n]). rewrite in_dir_path by (assumption || discriminate). assert (A : Forall component (l ++ [n])) by (apply Forall_app; split; assumption).
  unfold parent. rewrite abs_path, parts_path by exact A. rewrite removelast_last. reflexivity.
Qed.
Lemma name_in d n : plain_dir d -> component n -> path_name (in_dir d n) = n.
Proof.
  intros D C. apply plain_dir_path in D. destruct D as (a & l & H & ->). assert (K : Forall component [n]) by (constructor; [exact C|constructor]).
  change n with (path_str false [n]) at 1. rewrite in_dir_path by (assumption || discriminate). assert (A : Forall component (l ++ [n])) by (apply Forall_app; split; assumption).
  unfold path_name. rewrite parts_path by exact A. apply last_last.
Qed.
Lemma norm_in d u : plain_dir d -> plain_path u -> norm (in_dir d u) = in_dir d u.
Proof.
  intros D U. apply plain_dir_path in D. destruct D as (a & l & H & ->). apply plain_path_path in U. destruct U as (k & N & K & ->).
  rewrite in_dir_path by assumption. apply norm_path. apply Forall_app. split; assumption.
Qed.
Lemma norm_dir d : plain_dir d -> norm d = d.
Proof. intros D. apply plain_dir_path in D. destruct D as (a & l & H & ->). apply norm_path; exact H. Qed.
Lemma in_dir_inj d u u' : plain_dir d -> plain_path u -> plain_path u' -> in_dir d u = in_dir d u' -> u = u'.
Proof.
  intros D U U' E. apply plain_dir_path in D. destruct D as (a & l & H & ->). apply plain_path_path in U. destruct U as (k & N & K & ->). apply plain_path_path in U'. destruct U' as (k' & N' & K' & ->).
  rewrite !in_dir_path in E by assumption. apply path_inj in E; [|apply Forall_app; split; assumption|apply Forall_app; split; assumption]. destruct E as [_ E]. apply app_inv_head in E. subst k'. reflexivity.
Qed.
Lemma plain_local u : plain_path u -> is_url u = false.
Proof.
  intros (l & N & H & ->). unfold is_url. assert (X : forall p : pystr, p = lit "http:" \/ p = lit "https:" -> startswith (p ++ lit "//") (join (lit "/") l) = false).
  { intros p Hp. destruct (startswith (p ++ lit "//") (join (lit "/") l)) eqn:E; [|reflexivity]. exfalso. apply startswith_spec in E. destruct E as (r & E).
    assert (Np : ~ In 47 p) by (destruct Hp as [->| ->]; vm_compute; intuition discriminate).
    assert (Sp : split (lit "/") (join (lit "/") l) = p :: [] :: split (lit "/") r).
    { rewrite E, <- app_assoc. unfold split. change (lit "/") with [47]. rewrite split_aux_nosep by exact Np. cbn [app]. reflexivity. }
    rewrite split_components in Sp by assumption. subst l. inversion H as [|? ? _ H2]; subst. inversion H2 as [|? ? (B & _) _]; subst. apply B. reflexivity. }
  change (lit "http://") with (lit "http:" ++ lit "//"). change (lit "https://") with (lit "https:" ++ lit "//"). rewrite (X _ (or_introl eq_refl)), (X _ (or_intror eq_refl)). reflexivity.
Qed.
