(** C56: URI templates and QNames.  namespaces: the table in Expand.v; remote: LocateSpec.v; in_dir, plain_dir, plain_path: FilesSpec.v. *)
From Verif Require Import PyStr PyCsv Dsv Json Column Schema Table Zip Locate LocateSpec LocateProofs FmtvalProofs Files FilesSpec FilesProofs Expand.

(** ** The table of namespaces *)
Lemma ns_nodup : NoDup (map fst namespaces).
Proof. vm_compute. repeat (constructor; [cbn [In]; intuition discriminate|]). constructor. Qed.
Definition ns_check : bool :=
  forallb (fun pu => negb (char_mem 58 (fst pu)) && nonempty (fst pu) && char_mem 58 (snd pu) && is_url (snd pu) && negb (str_mem (fst pu) [lit "http"; lit "https"]) &&
    forallb (fun pu' => str_eqb (fst pu) (fst pu') || negb (startswith (snd pu) (snd pu') || startswith (snd pu') (snd pu))) namespaces) namespaces.
Lemma ns_ok : ns_check = true. Proof. vm_compute. reflexivity. Qed.
Lemma ns_facts p u : In (p, u) namespaces -> ~ In 58 p /\ p <> [] /\ In 58 u /\ is_url u = true /\ p <> lit "http" /\ p <> lit "https".
Proof.
  intros H. pose proof ns_ok as K. unfold ns_check in K. rewrite forallb_forall in K. specialize (K _ H). cbn [fst snd] in K. repeat (apply andb_true_iff in K; destruct K as [K ?]).
  apply negb_true_iff in K. apply char_mem_false in K. apply char_mem_In in H3. apply negb_true_iff in H1. apply str_mem_false in H1. repeat split; try assumption.
  - intros ->. discriminate H4.
  - intros ->. apply H1. left. reflexivity.
  - intros ->. apply H1. right. left. reflexivity.
Qed.
Lemma ns_same p u u' : In (p, u) namespaces -> In (p, u') namespaces -> u = u'.
Proof.
  generalize ns_nodup. induction namespaces as [|[q v] l IH]; intros Nd H H'; [destruct H|]. cbn [map fst] in Nd. apply NoDup_cons_iff in Nd. destruct Nd as [N1 N2]. destruct H as [H|H]; destruct H' as [H'|H'].
  - congruence.
  - injection H as -> ->. exfalso. apply N1. apply (in_map fst) in H'. exact H'.
  - injection H' as -> ->. exfalso. apply N1. apply (in_map fst) in H. exact H.
  - exact (IH N2 H H').
Qed.
Lemma startswith_app a b : startswith a (a ++ b) = true. Proof. apply startswith_spec. exists b. reflexivity. Qed.
Lemma prefix_either : forall (a b c d : pystr), a ++ c = b ++ d -> startswith a b = true \/ startswith b a = true.
Proof.
  induction a as [|x a IH]; intros b c d E; [left; reflexivity|]. destruct b as [|y b]; [right; reflexivity|]. cbn [app] in E. injection E as -> E. cbn [startswith]. rewrite N.eqb_refl. cbn [andb]. exact (IH b c d E).
Qed.
Lemma ns_url p u p' u' l l' : In (p, u) namespaces -> In (p', u') namespaces -> u ++ l = u' ++ l' -> p = p' /\ u = u'.
Proof.
  intros H H' E. assert (X : p = p'); [|subst p'; split; [reflexivity|exact (ns_same p u u' H H')]]. pose proof ns_ok as K. unfold ns_check in K. rewrite forallb_forall in K. specialize (K _ H). cbn [fst snd] in K. apply andb_true_iff in K. destruct K as [_ K].
  rewrite forallb_forall in K. specialize (K _ H'). cbn [fst snd] in K. apply orb_true_iff in K. destruct K as [K|K]; [apply str_eqb_eq in K; exact K|]. apply negb_true_iff, orb_false_iff in K. destruct K as [K1 K2]. destruct (prefix_either u u' l l' E); congruence.
Qed.
Lemma colon_split (p l p' l' : pystr) : ~ In 58 p -> ~ In 58 p' -> p ++ 58 :: l = p' ++ 58 :: l' -> p = p' /\ l = l'.
Proof.
  revert p'. induction p as [|x p IH]; intros p' Np Np' E; destruct p' as [|y p']; cbn [app] in E.
  - injection E as E. auto.
  - injection E as E _. exfalso. apply Np'. left. congruence.
  - injection E as E _. exfalso. apply Np. left. congruence.
  - injection E as -> E. destruct (IH p') as [-> ->]; [intros K; apply Np; right; exact K|intros K; apply Np'; right; exact K|exact E|]. auto.
Qed.
Lemma find_some_in {A} (f : A -> bool) l x : find f l = Some x -> In x l /\ f x = true. Proof. apply find_some. Qed.
Lemma template_found p u l : In (p, u) namespaces -> template_namespace (p ++ lit ":" ++ l) = Some (p, u).
Proof.
  intros H. unfold template_namespace. destruct (find (fun pu => startswith (fst pu ++ lit ":") (p ++ lit ":" ++ l)) namespaces) as [[p' u']|] eqn:E.
  - apply find_some in E. destruct E as [I S]. cbn [fst] in S. apply startswith_spec in S. destruct S as (r & S). pose proof (ns_facts p u H) as (N & _). pose proof (ns_facts p' u' I) as (N' & _).
    rewrite <- app_assoc in S. apply colon_split in S; [|exact N|exact N']. destruct S as [<- _]. f_equal. f_equal. exact (ns_same p u' u I H).
  - exfalso. pose proof (find_none _ _ E (p, u) H) as K. cbn [fst] in K. rewrite app_assoc, startswith_app in K. discriminate K.
Qed.
Lemma url_found p u l : In (p, u) namespaces -> find (fun pu => startswith (snd pu) (u ++ l)) namespaces = Some (p, u).
Proof.
  intros H. destruct (find (fun pu => startswith (snd pu) (u ++ l)) namespaces) as [[p' u']|] eqn:E.
  - apply find_some in E. destruct E as [I S]. cbn [snd] in S. apply startswith_spec in S. destruct S as (r & S). destruct (ns_url p u p' u' l r H I S) as [<- <-]. reflexivity.
  - exfalso. pose proof (find_none _ _ E (p, u) H) as K. cbn [snd] in K. rewrite startswith_app in K. discriminate K.
Qed.
Lemma no_colon_replace u new l : In 58 u -> ~ In 58 l -> replace u new l = l.
Proof.
  intros U L. unfold replace. induction l as [|x l IH]; [reflexivity|]. cbn [replace_aux]. assert (S : startswith u (x :: l) = false).
  { destruct (startswith u (x :: l)) eqn:E; [|reflexivity]. exfalso. apply startswith_spec in E. destruct E as (r & E). apply L. rewrite E. apply in_or_app. left; exact U. }
  rewrite S. f_equal. apply IH. intros K. apply L. right; exact K.
Qed.
Lemma replace_skip old new : forall a s, replace_aux old new (a ++ s) (length a) = replace_aux old new s 0.
Proof. induction a as [|x a IH]; intros s; [reflexivity|]. cbn [app length replace_aux]. apply IH. Qed.
Lemma replace_first old new s : old <> [] -> replace old new (old ++ s) = new ++ replace old new s.
Proof.
  intros N. unfold replace. destruct old as [|x old]; [contradiction|]. cbn [app replace_aux].
  assert (S : startswith (x :: old) (x :: old ++ s) = true) by (apply startswith_spec; exists s; reflexivity). rewrite S. cbn [length Nat.sub]. rewrite Nat.sub_0_r. f_equal. apply replace_skip.
Qed.
Lemma shorten_ns p u l : In (p, u) namespaces -> ~ In 58 l -> shorten (u ++ l) = p ++ lit ":" ++ l.
Proof.
  intros H L. unfold shorten. rewrite (url_found p u l H). pose proof (ns_facts p u H) as (_ & _ & C & _). rewrite replace_first by (intros ->; destruct C). rewrite no_colon_replace by assumption. rewrite <- app_assoc. reflexivity.
Qed.
Lemma split_one p l : ~ In 58 p -> ~ In 58 l -> split (lit ":") (p ++ lit ":" ++ l) = [p; l].
Proof.
  intros P L. assert (X : p ++ lit ":" ++ l = join [58] [p; l]) by reflexivity. rewrite X. apply (split_join1 58); [discriminate|]. intros x [<-|[<-|[]]]; assumption.
Qed.

(** A QName p:l, with a prefix p of the table, stands for the URL of the namespace followed by l - whatever the row; with qname=True it is returned as it is. *)
Theorem c56_qname : forall V env ue p u l url b (row : list (pystr * pyval V)) rownum name, In (p, u) namespaces -> ~ In 58 l ->
  expand_template env ue url b (Some (p ++ lit ":" ++ l)) row rownum name false = Ok (PStr (u ++ l)) /\
  expand_template env ue url b (Some (p ++ lit ":" ++ l)) row rownum name true = Ok (PStr (p ++ lit ":" ++ l)).
Proof.
  intros V env ue p u l url b row rownum name H L. pose proof (ns_facts p u H) as (N & _). unfold expand_template. rewrite (template_found p u l H), (split_one p l N L). cbn [nth snd bind]. split; [reflexivity|]. rewrite (shorten_ns p u l H L). reflexivity.
Qed.
Print Assumptions c56_qname.

(** Another template is expanded with the row, _row and _name, and the result is resolved: a URL stays as it is if the table is a local file;
    a relative path is in the directory of the table; *)
Definition plain_template (t : pystr) : Prop := forall p u r, In (p, u) namespaces -> t <> p ++ lit ":" ++ r.
Lemma plain_template_none t : plain_template t -> template_namespace t = None.
Proof.
  intros H. unfold template_namespace. destruct (find (fun pu => startswith (fst pu ++ lit ":") t) namespaces) as [[p u]|] eqn:E; [|reflexivity]. apply find_some in E. destruct E as [I S]. cbn [fst] in S. apply startswith_spec in S. destruct S as (r & ->).
  exfalso. apply (H p u r I). rewrite <- app_assoc. reflexivity.
Qed.
Theorem c56_local : forall V env ue t d f (row : list (pystr * pyval V)) rownum name x qname,
  plain_template t -> plain_dir d -> plain_path f -> fe_isdir env d = true -> fe_isdir env (in_dir d f) = false ->
  ~ In (lit "_row") (map fst row) -> ~ In (lit "_name") (map fst row) ->
  ue t ((lit "_row", rownum) :: (lit "_name", name) :: row) = Ok x ->
  (remote x -> expand_template env ue (Some f) (BPath d) (Some t) row rownum name false = Ok (PStr x)) /\
  (component f -> plain_path x -> expand_template env ue (Some f) (BPath d) (Some t) row rownum name qname = Ok (PPath (in_dir d x))).
Proof.
  intros V env ue t d f row rownum name x qname T D F I If Nr Nn U. unfold expand_template, template_vars. rewrite (plain_template_none t T).
  rewrite (proj2 (str_mem_false _ _) Nr), (proj2 (str_mem_false _ _) Nn). cbn [orb bind]. rewrite U. cbn [bind].
  assert (L : link_resolve env (BPath d) f = PPath (in_dir d f)) by (unfold link_resolve; rewrite (plain_local f F), I, joinpath_in by assumption; reflexivity). rewrite L. cbn [as_base]. unfold link_resolve. rewrite If. split.
  - intros R. apply is_url_iff in R. rewrite R. reflexivity.
  - intros C X. rewrite (plain_local x X). rewrite parent_in by assumption. rewrite joinpath_in by assumption. reflexivity.
Qed.
Print Assumptions c56_local.
(** in the table of a URL (or of a base that is a string), it is joined to the URL of the table; *)
Theorem c56_url : forall V env ue t f base (row : list (pystr * pyval V)) rownum name x,
  plain_template t -> ~ In (lit "_row") (map fst row) -> ~ In (lit "_name") (map fst row) -> ue t ((lit "_row", rownum) :: (lit "_name", name) :: row) = Ok x ->
  expand_template env ue (Some f) (BUrl base) (Some t) row rownum name false = Ok (PStr (fe_join env (fe_join env base f) x)).
Proof.
  intros V env ue t f base row rownum name x T Nr Nn U. unfold expand_template, template_vars. rewrite (plain_template_none t T). rewrite (proj2 (str_mem_false _ _) Nr), (proj2 (str_mem_false _ _) Nn). cbn [orb bind]. rewrite U. reflexivity.
Qed.
Print Assumptions c56_url.
(** qname=True only changes a URL in a namespace, to the QName of the rest; different URLs stay different. *)
Definition in_namespace (x p l : pystr) : Prop := exists u, In (p, u) namespaces /\ x = u ++ l.
Definition short_form (x y : pystr) : Prop := (exists p l, in_namespace x p l /\ ~ In 58 l /\ y = p ++ lit ":" ++ l) \/ ((forall p l, ~ in_namespace x p l) /\ y = x).
Theorem c56_short : forall V env ue url b t (row : list (pystr * pyval V)) rownum name x, plain_template t ->
  expand_template env ue url b (Some t) row rownum name false = Ok (PStr x) -> (forall p l, in_namespace x p l -> ~ In 58 l) ->
  exists y, expand_template env ue url b (Some t) row rownum name true = Ok (PStr y) /\ short_form x y.
Proof.
  intros V env ue url b t row rownum name x T E L. unfold expand_template in *. rewrite (plain_template_none t T) in *. destruct (template_vars row rownum name) as [kw|]; [|discriminate E]. cbn [bind] in *. destruct (ue t kw) as [s|]; [|discriminate E]. cbn [bind] in *.
  destruct (link_resolve env match url with Some u => as_base (link_resolve env b u) | None => b end s) as [z|z]; [|discriminate E]. injection E as ->. exists (shorten x). split; [reflexivity|]. unfold shorten.
  destruct (find (fun pu => startswith (snd pu) x) namespaces) as [[p u]|] eqn:Fi.
  - apply find_some in Fi. destruct Fi as [I S]. cbn [snd] in S. apply startswith_spec in S. destruct S as (l & ->). left. assert (In_ : in_namespace (u ++ l) p l) by (exists u; auto). pose proof (L p l In_) as Nl. exists p, l. split; [exact In_|]. split; [exact Nl|].
    pose proof (shorten_ns p u l I Nl) as Sh. unfold shorten in Sh. rewrite (url_found p u l I) in Sh. exact Sh.
  - right. split; [|reflexivity]. intros p l (u & I & ->). pose proof (find_none _ _ Fi (p, u) I) as K. cbn [snd] in K. rewrite startswith_app in K. discriminate K.
Qed.
Print Assumptions c56_short.
Theorem c56_injective : forall x x' y, remote x -> remote x' -> short_form x y -> short_form x' y -> x = x'.
Proof.
  assert (Mixed : forall x p u l, remote x -> In (p, u) namespaces -> x = p ++ lit ":" ++ l -> False).
  { intros x p u l (r & [R|R]) I E; rewrite E in R; pose proof (ns_facts p u I) as (N & _ & _ & _ & H1 & H2).
    - assert (X : p ++ 58 :: l = lit "http" ++ 58 :: (lit "//" ++ r)) by exact R. apply colon_split in X; [|exact N|vm_compute; intuition discriminate]. destruct X as [X _]. exact (H1 X).
    - assert (X : p ++ 58 :: l = lit "https" ++ 58 :: (lit "//" ++ r)) by exact R. apply colon_split in X; [|exact N|vm_compute; intuition discriminate]. destruct X as [X _]. exact (H2 X). }
  intros x x' y R R' [(p & l & (u & I & E) & L & Y)|[N Y]] [(p' & l' & (u' & I' & E') & L' & Y')|[N' Y']].
  - rewrite Y in Y'. pose proof (ns_facts p u I) as (P & _). pose proof (ns_facts p' u' I') as (P' & _). apply colon_split in Y'; [|exact P|exact P']. destruct Y' as [<- <-]. rewrite (ns_same p u u' I I') in E. congruence.
  - exfalso. apply (Mixed x' p u l R' I). congruence.
  - exfalso. apply (Mixed x p' u' l' R I'). congruence.
  - congruence.
Qed.
Print Assumptions c56_injective.
(** An invalid template stands for the table itself. *)
Theorem c56_invalid : forall V env ue d f (row : list (pystr * pyval V)) rownum name qname, plain_dir d -> plain_path f -> fe_isdir env d = true ->
  expand_template env ue (Some f) (BPath d) None row rownum name qname = Ok (PPath (in_dir d f)).
Proof. intros V env ue d f row rownum name qname D F I. unfold expand_template, link_resolve. rewrite (plain_local f F), I, joinpath_in by assumption. reflexivity. Qed.
Print Assumptions c56_invalid.
(** utils.qname2url: the same for seven prefixes, None for others. *)
Theorem c56_qname2url : forall q x,
  (forall p u l, In (p, u) url_prefixes -> q = p ++ lit ":" ++ l -> ~ In 58 l -> (qname2url q = Some x <-> x = u ++ l) /\ In (p, u) namespaces) /\
  ((forall p u l, In (p, u) url_prefixes -> q <> p ++ lit ":" ++ l) -> qname2url q = None).
Proof.
  assert (Sub : forall pu, In pu url_prefixes -> In pu namespaces).
  { intros pu I. cbn [url_prefixes In] in I. repeat (destruct I as [<-|I]; [vm_compute; intuition|]). destruct I. }
  intros q x. split.
  - intros p u l I -> L. split; [|apply Sub; exact I]. pose proof (ns_facts p u (Sub _ I)) as (N & _). unfold qname2url.
    assert (Fo : find (fun pu => startswith (fst pu ++ lit ":") (p ++ lit ":" ++ l)) url_prefixes = Some (p, u)).
    { destruct (find (fun pu => startswith (fst pu ++ lit ":") (p ++ lit ":" ++ l)) url_prefixes) as [[p' u']|] eqn:E.
      - apply find_some in E. destruct E as [I' S]. cbn [fst] in S. apply startswith_spec in S. destruct S as (r & S). pose proof (ns_facts p' u' (Sub _ I')) as (N' & _).
        rewrite <- app_assoc in S. apply colon_split in S; [|exact N|exact N']. destruct S as [<- _]. f_equal. f_equal. exact (ns_same p u' u (Sub _ I') (Sub _ I)).
      - exfalso. pose proof (find_none _ _ E (p, u) I) as K. cbn [fst] in K. rewrite app_assoc, startswith_app in K. discriminate K. }
    rewrite Fo. rewrite app_assoc. rewrite replace_first by (destruct p; discriminate). rewrite no_colon_replace; [|apply in_or_app; right; left; reflexivity|exact L]. split; [intros H; injection H as <-; reflexivity|intros ->; reflexivity].
  - intros H. unfold qname2url. destruct (find (fun pu => startswith (fst pu ++ lit ":") q) url_prefixes) as [[p u]|] eqn:E; [|reflexivity]. apply find_some in E. destruct E as [I S]. cbn [fst] in S. apply startswith_spec in S. destruct S as (r & ->).
    exfalso. apply (H p u r I). rewrite <- app_assoc. reflexivity.
Qed.
Print Assumptions c56_qname2url.

(** Examples *)
Definition env1 : fenv := {| fe_isdir := fun p => str_eqb p (lit "d"); fe_join := fun b s => b ++ s; fe_get := fun _ => Err OtherError; fe_dumps := fun _ => []; fe_loads := fun _ => None |}.
Definition ue1 (t : pystr) (kw : list (pystr * pyval pystr)) : res pystr := match dget str_eqb kw (lit "a") with Some (POne v) => Ok (t ++ v) | _ => Ok t end.
Definition row1 : list (pystr * pyval pystr) := [(lit "a", POne (lit "1"))].
Example c56_nonvacuous :
  In (lit "schema", lit "http://schema.org/") namespaces /\ plain_template (lit "http://schema.org/x") /\
  expand_template env1 ue1 (Some (lit "t.csv")) (BPath (lit "d")) (Some (lit "schema:name")) row1 PNone PNone true = Ok (PStr (lit "schema:name")) /\
  expand_template env1 ue1 (Some (lit "t.csv")) (BPath (lit "d")) (Some (lit "schema:name")) row1 PNone PNone false = Ok (PStr (lit "http://schema.org/name")) /\
  expand_template env1 ue1 (Some (lit "t.csv")) (BPath (lit "d")) (Some (lit "http://schema.org/x")) row1 PNone PNone true = Ok (PStr (lit "schema:x1")) /\
  expand_template env1 ue1 (Some (lit "t.csv")) (BPath (lit "d")) (Some (lit "#row-")) row1 PNone PNone true = Ok (PPath (lit "d/#row-1")) /\
  expand_template env1 ue1 (Some (lit "t.csv")) (BUrl (lit "http://x/")) (Some (lit "#row-")) row1 PNone PNone true = Ok (PStr (lit "http://x/t.csv#row-1")) /\
  qname2url (lit "dc:title") = Some (lit "http://purl.org/dc/terms/title").
Proof.
  split; [vm_compute; intuition|]. split.
  { intros p u r I E. pose proof (ns_facts p u I) as (N & _ & _ & _ & H1 & _). assert (X : lit "http" ++ 58 :: lit "//schema.org/x" = p ++ 58 :: r) by exact E. apply colon_split in X; [|vm_compute; intuition discriminate|exact N]. destruct X as [X _]. exact (H1 (eq_sym X)). }
  repeat split; vm_compute; reflexivity.
Qed.
(** *** What does not hold *)
(** a local part with a colon is cut; variables in it are not expanded *)
Theorem c56_colon_refuted : forall (row : list (pystr * pyval pystr)),
  expand_template env1 ue1 (Some (lit "t.csv")) (BPath (lit "d")) (Some (lit "schema:a:b")) row PNone PNone false = Ok (PStr (lit "http://schema.org/a")) /\
  expand_template env1 ue1 (Some (lit "t.csv")) (BPath (lit "d")) (Some (lit "schema:{a}")) row PNone PNone false = Ok (PStr (lit "http://schema.org/{a}")).
Proof. intros row. split; vm_compute; reflexivity. Qed.
Print Assumptions c56_colon_refuted.
(** a column called _row or _name makes every expansion of another template fail *)
Theorem c56_reserved_refuted : forall (ue : pystr -> list (pystr * pyval pystr) -> res pystr) t row url b rownum name q, plain_template t -> In (lit "_row") (map fst row) \/ In (lit "_name") (map fst row) ->
  expand_template env1 ue url b (Some t) row rownum name q = Err TypeError.
Proof.
  intros ue t row url b rownum name q T H. unfold expand_template, template_vars. rewrite (plain_template_none t T). destruct H as [H|H]; apply str_mem_In in H; rewrite H; [reflexivity|rewrite orb_true_r; reflexivity].
Qed.
Print Assumptions c56_reserved_refuted.
(** the URL of the namespace is replaced again inside the rest: two different URLs become the same *)
Theorem c56_twice_refuted : shorten (lit "http://schema.org/?u=http://schema.org/x") = lit "schema:?u=schema:x" /\ shorten (lit "http://schema.org/?u=schema:x") = lit "schema:?u=schema:x".
Proof. split; vm_compute; reflexivity. Qed.
Print Assumptions c56_twice_refuted.
