(** Lemmas for C55: files of plain groups. *)
From Verif Require Import PyStr PyCsv Dsv DsvSpec DsvProofs4 Json Column Schema Table TableSpec TableProofs5 TableProofs6 Zip ZipSpec ZipProofs Locate LocateSpec LocateProofs DbProofs DbReadProofs3 JsonldProofs TripleProofs GroupProofs Files FilesSpec FilesProofs FilesProofs2 Props_Zip.

Lemma plain_zip n : plain_path n -> plain_path (n ++ lit ".zip").
Proof.
  intros (l & N & H & ->). destruct l as [|x l _] using rev_ind; [contradiction|]. apply Forall_app in H. destruct H as [H1 H2]. exists (l ++ [x ++ lit ".zip"]). split; [destruct l; discriminate|]. split; [|apply join_snoc].
  apply Forall_app. split; [exact H1|]. inversion H2 as [|? ? (A & B & C & D) _]; subst. constructor; [|constructor]. split; [destruct x; discriminate|]. split; [|split].
  - destruct x as [|a [|b x]]; [contradiction| |]; intros E; discriminate E.
  - destruct x as [|a [|b [|c x]]]; [contradiction| | |]; intros E; discriminate E.
  - intros I. apply in_app_or in I. destruct I as [I|I]; [exact (D I)|]. vm_compute in I. intuition discriminate.
Qed.
Lemma in_dir_zip d n : in_dir d n ++ lit ".zip" = in_dir d (n ++ lit ".zip").
Proof. unfold in_dir. destruct (str_eqb d (lit ".")); [reflexivity|]. destruct (str_eqb d (lit "/")); rewrite <- ?app_assoc; reflexivity. Qed.
Lemma last_part_in d n : last_part n (basename (in_dir d n)).
Proof.
  change (basename (in_dir d n)) with (last_component (in_dir d n)). assert (X : last_component (in_dir d n) = last_component n); [|rewrite X; apply last_component_part].
  pose proof (last_component_part n) as [A B]. apply (last_part_unique (in_dir d n)); [apply last_component_part|]. split; [exact A|]. unfold in_dir.
  destruct (str_eqb d (lit ".")); [exact B|]. right. destruct (str_eqb d (lit "/")); destruct B as [B|(a & B)].
  - exists []. rewrite <- B. reflexivity.
  - exists (lit "/" ++ a). rewrite B at 1. rewrite <- app_assoc. reflexivity.
  - exists d. rewrite <- B. reflexivity.
  - exists (d ++ lit "/" ++ a). rewrite B at 1. rewrite <- !app_assoc. reflexivity.
Qed.

Section Plain.
Context {V : Type} (sc : scalars V) (expand : pystr -> dict V -> res pystr).
Variables (env : fenv) (pv : pyver) (lim : N).
Variables (g : fgroup V) (d m : pystr).
Hypothesis Hg : plain_group g.
Hypothesis Hd : plain_dir d.
Hypothesis Hi : fe_isdir env d = true.
Hypothesis Hm : component m.

Lemma target_named n t : named g n t -> target env d t = in_dir d n.
Proof. intros N. apply named_url in N. destruct N as [<- I]. apply target_in; [exact Hd|apply Hg; exact I|exact Hi]. Qed.
Lemma named_plain n t : named g n t -> plain_path n.
Proof. intros N. apply named_url in N. destruct N as [<- I]. apply Hg; exact I. Qed.
Lemma touched_in zipped n q : In q (touched zipped (in_dir d n)) -> q = in_dir d n \/ (zipped = true /\ q = in_dir d (n ++ lit ".zip")).
Proof. unfold touched, zip_path. destruct zipped; intros H; [destruct H as [<-|[<-|[]]]; [left; reflexivity|right; split; [reflexivity|apply in_dir_zip]]|destruct H as [<-|[]]; left; reflexivity]. Qed.
Lemma touched_data zipped names n q : In n names -> In q (touched zipped (in_dir d n)) -> In q (data_files zipped d names).
Proof.
  intros I Q. unfold data_files. apply in_or_app. unfold touched, zip_path in Q. destruct zipped; cbn [In] in Q; [destruct Q as [<-|[<-|[]]]|destruct Q as [<-|[]]].
  - left. apply in_map. exact I.
  - right. apply (in_map (fun n => in_dir d n ++ lit ".zip")). exact I.
  - left. apply in_map. exact I.
Qed.
Lemma zip_neq (n : pystr) : n ++ lit ".zip" <> n.
Proof. intros E. apply (f_equal (@length N)) in E. rewrite app_length in E. cbn in E. lia. Qed.
Lemma clash_free zipped names : no_clash zipped m names -> separate env g d zipped names.
Proof.
  intros (Nd & _ & Z). split; [exact Nd|]. intros n n' t t' q I I' N N'. pose proof (named_plain n t N) as P. pose proof (named_plain n' t' N') as P'.
  rewrite (target_named n t N), (target_named n' t' N'). intros Q Q'. apply touched_in in Q. apply touched_in in Q'.
  destruct Q as [-> |[Ez ->]]; destruct Q' as [E|[Ez' E]].
  - exact (in_dir_inj d n n' Hd P P' E).
  - exfalso. apply (in_dir_inj d _ _ Hd P (plain_zip n' P')) in E. apply (Z Ez' n' I'). right. rewrite <- E. exact I.
  - exfalso. apply (in_dir_inj d _ _ Hd (plain_zip n P) P') in E. apply (Z Ez n I). right. rewrite E. exact I'.
  - apply (in_dir_inj d _ _ Hd (plain_zip n P) (plain_zip n' P')) in E. apply app_inv_tail in E. exact E.
Qed.
Lemma meta_free zipped (items : list (pystr * list (item V))) : no_clash zipped m (map fst items) -> ~ items_touch env g d zipped items (in_dir d m).
Proof.
  intros (_ & Nm & Z) (n & rows & t & I & N & Q). pose proof (named_plain n t N) as P. rewrite (target_named n t N) in Q. apply (in_map fst) in I. cbn [fst] in I. pose proof (plain_one m Hm) as Pm.
  apply touched_in in Q. destruct Q as [E|[Ez E]].
  - apply (in_dir_inj d _ _ Hd Pm P) in E. subst n. contradiction.
  - apply (in_dir_inj d _ _ Hd Pm (plain_zip n P)) in E. apply (Z Ez n I). left. exact E.
Qed.
Lemma touch_data zipped (items : list (pystr * list (item V))) q : items_touch env g d zipped items q -> In q (data_files zipped d (map fst items)).
Proof. intros (n & rows & t & I & N & Q). rewrite (target_named n t N) in Q. eapply touched_data; [|exact Q]. apply (in_map fst) in I. exact I. Qed.
Lemma meta_norm : norm (in_dir d m) = in_dir d m.
Proof. apply norm_in; [exact Hd|apply plain_one; exact Hm]. Qed.
Lemma meta_parent : parent (norm (in_dir d m)) = d.
Proof. rewrite meta_norm. apply parent_in; assumption. Qed.
Lemma finished_stored strict zipped fs n rows : finished sc env pv lim g d strict zipped fs (n, rows) ->
  exists t text name, named g n t /\ text_of sc pv lim strict g t rows text /\ last_part n name /\ stored zipped fs (in_dir d n) name text.
Proof.
  intros (t & before & text & k & fs0 & fs1 & N & C & W & St & _). cbn [fst snd] in *. rewrite (target_named n t N) in *. exists t, text, (basename (in_dir d n)). split; [exact N|]. split; [|split; [apply last_part_in|exact St]].
  exists (dialect_of g t), before, k. split; [apply dialect_ok|exact W].
Qed.
Lemma group_write_ok strict zipped fs items fs' : group_write sc env pv lim g strict zipped fs (in_dir d m) items = (fs', Ok tt) ->
  exists fs1 j, write_tables sc env pv lim g d strict zipped fs items = (fs1, Ok tt) /\ gr_doc g = Ok j /\ creatable env (in_dir d m) = true /\ fs' = Zip.put fs1 (in_dir d m) (Some (Plain (fe_dumps env j))).
Proof.
  unfold group_write. rewrite meta_parent, meta_norm. destruct (write_tables sc env pv lim g d strict zipped fs items) as [fs1 [[]|e]]; [|discriminate]. unfold to_file. destruct (gr_doc g) as [j|]; [|discriminate].
  destruct (creatable env (in_dir d m)) eqn:C; [|discriminate]. intros H. injection H as <-. exists fs1, j. repeat split; assumption || reflexivity.
Qed.
Lemma table_iter_at fs t f : In t (gr_tables g) -> gr_base g = None -> gr_fname g = Some f -> f = in_dir d m ->
  table_iter sc expand env lim g fs t = iter_file sc expand lim (dialect_of g t) (t_lang t) true false (t_cols t) fs (in_dir d (t_url t)).
Proof.
  intros I B F ->. unfold table_iter, base_of. rewrite B, F. unfold resolve. rewrite (plain_local (t_url t)) by (apply Hg; exact I). rewrite parent_in by assumption. rewrite Hi. rewrite joinpath_in by (exact Hd || apply Hg; exact I). reflexivity.
Qed.
End Plain.
