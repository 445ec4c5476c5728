(** C69: what json.dumps gets; the rows and comments of a file. *)
From Verif Require Import PyStr PyCsv Dsv DsvSpec DsvProofs DsvProofs4 Json Dec NatLang Column Schema Table Zip Locate LocateSpec Files Descr Load FrictionlessProofs2 DbProofs JsonldProofs Jsonld Csv2json Csv2jsonSpec Csv2jsonProofs Csv2jsonProofs2
  LoadSpec Cli CliSpec CliProofs1 ToJson ToJsonSpec.
From Verif Require MetaSpec JsonText JsonTextSpec.

Section Shown.
Context {V : Type} (shows : V -> option json).
Lemma item_ok v j : shown_item shows v = Ok j -> item_shown shows v j.
Proof.
  destruct v as [v|]; cbn [shown_item].
  - unfold shown_value. destruct (shows v) eqn:E; [|discriminate]. intros H. apply Ok_inj in H. subst. constructor. exact E.
  - intros H. apply Ok_inj in H. subst. constructor.
Qed.
Lemma mapM_shown {A} (f : A -> res json) (R : A -> json -> Prop) : (forall a j, f a = Ok j -> R a j) -> forall l js, mapM f l = Ok js -> Forall2 R l js.
Proof. intros H l js M. apply mapM_Forall2 in M. eapply Forall2_weaken; [|exact M]. intros a j _. apply H. Qed.
Fixpoint tree_ok (x : tree (option V)) : forall j, tree_json shows x = Ok j -> tree_shown shows x j.
Proof.
  destruct x as [v|l]; intros j H; cbn [tree_json] in H; [constructor; apply item_ok; exact H|].
  apply bind_inv in H. destruct H as (js & H & E). apply Ok_inj in E. subst j. constructor. revert js H. induction l as [|x l IH]; intros js H.
  - apply Ok_inj in H. subst js. constructor.
  - apply bind_inv in H. destruct H as (j & Hj & H). apply bind_inv in H. destruct H as (js' & Hl & E). apply Ok_inj in E. subst js. constructor; [apply tree_ok; exact Hj|apply IH; exact Hl].
Qed.
Lemma oval_ok (o : @oval (option V)) j : oval_json shows o = Ok j -> oval_shown shows o j.
Proof. destruct o as [x|i]; cbn [oval_json]; intros H; [constructor; apply tree_ok; exact H|]. apply Ok_inj in H. subst. constructor. Qed.
Lemma value_ok (v : pyval V) j : value_json shows v = Ok j -> value_shown shows v j.
Proof.
  destruct v as [|x|l]; cbn [value_json]; intros H.
  - apply Ok_inj in H. subst. constructor.
  - unfold shown_value in H. destruct (shows x) eqn:E; [|discriminate H]. apply Ok_inj in H. subst. constructor. exact E.
  - apply bind_inv in H. destruct H as (js & H & E). apply Ok_inj in E. subst j. constructor. exact (mapM_shown _ _ item_ok _ _ H).
Qed.
Lemma titles_shown_ok (t : titles V) j : titles_json shows t = Ok j -> titles_shown shows t j.
Proof.
  destruct t as [v|l]; cbn [titles_json]; intros H; [constructor; apply value_ok; exact H|]. apply bind_inv in H. destruct H as (js & H & E). apply Ok_inj in E. subst j. constructor. exact (mapM_shown _ _ value_ok _ _ H).
Qed.
Lemma pairs_ok {A} (f : A -> res json) (R : A -> json -> Prop) (kvs : list (pystr * A)) l : (forall a j, f a = Ok j -> R a j) -> mapM (fun kv => j <- f (snd kv) ;; Ok (fst kv, j)) kvs = Ok l -> Forall2 (fun kv kj => fst kj = fst kv /\ R (snd kv) (snd kj)) kvs l.
Proof.
  intros H M. apply mapM_Forall2 in M. eapply Forall2_weaken; [|exact M]. intros [k a] [k' j] _ E. cbn [fst snd] in *. apply bind_inv in E. destruct E as (x & E & E'). apply Ok_inj in E'. injection E' as <- <-. split; [reflexivity|apply H; exact E].
Qed.
Lemma object_shown_ok {A} (f : A -> res json) (R : A -> json -> Prop) (kvs : list (pystr * A)) j : (forall a j, f a = Ok j -> R a j) -> items_json f kvs = Ok j -> object_shown R kvs j.
Proof.
  intros H M. unfold items_json in M. apply bind_inv in M. destruct M as (l & M & E). apply Ok_inj in E. subst j. exists l. split; [reflexivity|]. exact (pairs_ok f R kvs l H M).
Qed.
Lemma row_shown_ok (r : jrow V) j : row_json shows r = Ok j -> row_shown shows r j.
Proof.
  intros H. unfold row_json in H. apply bind_inv in H. destruct H as (ti & Ht & H). apply bind_inv in H. destruct H as (ds & Hd & H). apply Ok_inj in H. subst j. constructor. eexists _, ds. split; [reflexivity|].
  assert (D : Forall2 (object_shown (oval_shown shows)) (jr_describes r) ds) by exact (mapM_shown _ _ (fun a j => object_shown_ok _ _ a j oval_ok) _ _ Hd).
  destruct (jr_titles r) as [t|].
  - apply bind_inv in Ht. destruct Ht as (tj & Ht & E). apply Ok_inj in E. subst ti. split; [reflexivity|]. split; [reflexivity|]. split; [exists tj; split; [reflexivity|apply titles_shown_ok; exact Ht]|]. split; [reflexivity|]. split; [exact D|].
    intros k I. cbn [map fst app In] in *. tauto.
  - apply Ok_inj in Ht. subst ti. split; [reflexivity|]. split; [reflexivity|]. split; [reflexivity|]. split; [reflexivity|]. split; [exact D|].
    intros k I. cbn [map fst app In] in *. tauto.
Qed.
Lemma out_shown_ok (o : jout V) j : out_json shows o = Ok j -> out_shown shows o j.
Proof.
  destruct o as [i|rs]; cbn [out_json]; intros H; [apply Ok_inj in H; subst; constructor|]. apply bind_inv in H. destruct H as (js & H & E). apply Ok_inj in E. subst j. constructor. exact (mapM_shown _ _ row_shown_ok _ _ H).
Qed.
(** the common properties, as JSON *)
Definition plain_of (kvs : list (pystr * jout V)) : list (pystr * json) := flat_map (fun kv => match snd kv with OJson j => [(fst kv, j)] | _ => [] end) kvs.
Lemma result_shown_ok c os j : (forall k o, In (k, o) c -> exists i, o = OJson i) -> result_json shows (c, os) = Ok j -> result_shown shows (plain_of c) os j.
Proof.
  intros Pl H. unfold result_json in H. cbn [fst snd] in H. apply bind_inv in H. destruct H as (cj & Hc & H). apply bind_inv in H. destruct H as (js & Hs & H). apply Ok_inj in H. subst j.
  eexists _, js. split; [reflexivity|]. split; [unfold member; rewrite (dget_dset str_eqb str_eqb_eq), str_eqb_refl; reflexivity|]. split; [exact (mapM_shown _ _ (fun a j => object_shown_ok _ _ a j out_shown_ok) _ _ Hs)|].
  intros k Hk. unfold member. rewrite (dget_dset str_eqb str_eqb_eq). destruct (str_eqb_spec k (lit "tables")); [contradiction|]. f_equal.
  clear -Pl Hc. revert cj Hc. induction c as [|[k o] c IH]; intros cj Hc.
  - apply Ok_inj in Hc. subst. reflexivity.
  - destruct (Pl k o (or_introl eq_refl)) as (i & ->). cbn [mapM snd fst out_json bind] in Hc. apply bind_inv in Hc. destruct Hc as (cj' & E & Hc). apply Ok_inj in Hc. subst cj.
    unfold plain_of. cbn [flat_map snd fst app]. f_equal. apply IH; [intros k' o' I; exact (Pl k' o' (or_intror I))|exact E].
Qed.
Lemma dget_plain c k i : dget str_eqb c k = Some (OJson i) -> dget str_eqb (plain_of c) k = Some i.
Proof.
  induction c as [|[k' o] c IH]; [discriminate|]. cbn [dget]. destruct (str_eqb k k') eqn:E.
  - intros H. injection H as ->. unfold plain_of. cbn [flat_map snd fst app dget]. rewrite E. reflexivity.
  - intros H. unfold plain_of. cbn [flat_map snd fst]. destruct o as [j|]; cbn [app dget]; [rewrite E|]; apply IH; exact H.
Qed.
Lemma plain_keys c k : In k (map fst (plain_of c)) -> In k (map fst c).
Proof.
  intros I. apply in_map_iff in I. destruct I as ([k' j] & <- & I). apply in_flat_map in I. destruct I as ([k2 o] & I & H). cbn [snd fst] in *. destruct o; [|destruct H]. destruct H as [H|[]]. injection H as <- _. apply (in_map fst) in I. exact I.
Qed.
End Shown.

Section Read.
Context {B V : Type} (sc : scalars V) (F : pystr -> json_fns V).
Variables (lim : N) (env : fenv) (fs : files).
Lemma reader_raw b dl url : rows_reader lim env fs b dl url = (s <- raw_rows lim env fs b dl url ;; Ok (map (fun x => (S (fst x), snd x)) (fst (reader_iter (Some dl) (fst s))), snd s)).
Proof.
  unfold rows_reader, raw_rows. destruct (resolve env b url) as [u|p].
  - destruct (fe_get env u); reflexivity.
  - destruct (fs p) as [[]|]; try reflexivity. destruct (fs (zip_path p)) as [[|ms|]|]; try reflexivity. destruct (filter _ ms); reflexivity.
Qed.
Lemma raw_at_ok b dl url raw : raw_rows lim env fs b dl url = Ok (raw, None) -> raw_at lim env fs b dl url raw.
Proof.
  unfold raw_rows. destruct (resolve env b url) as [u|p] eqn:R.
  - destruct (fe_get env u) as [c|] eqn:G; [|discriminate]. intros H. exact (rw_web _ _ _ _ _ _ _ u c R G H).
  - destruct (fs p) as [[t|m|]|] eqn:Fp; try discriminate; [intros H; exact (rw_file _ _ _ _ _ _ _ p t R Fp H)|].
    destruct (fs (zip_path p)) as [[|ms|]|] eqn:Z; try discriminate. destruct (filter _ ms) as [|m rest] eqn:Fl; [discriminate|]. intros H.
    apply filter_first in Fl. destruct Fl as (before & after & -> & Fm & Fb). destruct m as [name text]. eapply (rw_zip _ _ _ _ _ _ _ p before name text after R Fp Z); [apply endswith_iff; exact Fm| |exact H].
    intros n t I E. apply endswith_iff in E. specialize (Fb _ I). cbn [fst] in Fb. congruence.
Qed.
Definition becoming (s : @jsource V) : conv := {| cv_base := jo_base s; cv_dialect := jo_dialect s; cv_table := jo_checked s; cv_json := jo_table s |}.
Lemma becomes_ok nometa (s : jsource) o : map jc_col (jt_cols (jo_table s)) = t_cols (jo_checked s) -> proper_common (jo_table s) -> source_json sc F lim env fs nometa s = Ok o ->
  table_becomes sc F lim env fs nometa (jo_base s) (jo_dialect s) (jo_checked s) (jo_table s) o.
Proof.
  intros Ec Pc H. unfold source_json in H. unfold table_becomes. set (j := jo_table s) in *. set (dl := jo_dialect s) in *. set (x := jo_checked s) in *.
  assert (Hr : rows_for sc F lim env fs (jo_base s) dl j x = iter_reader sc (jf_expand_row (F (jt_url j))) dl (t_lang x) false false (map jc_col (jcols j)) (rows_reader lim env fs (jo_base s) dl (t_url x))).
  { unfold rows_for. rewrite iter_at_reader. reflexivity. }
  rewrite Hr in H.
  assert (X : exists raw, raw_rows lim env fs (jo_base s) dl (t_url x) = Ok (raw, None)).
  { assert (En : io_end (iter_reader sc (jf_expand_row (F (jt_url j))) dl (t_lang x) false false (map jc_col (jcols j)) (rows_reader lim env fs (jo_base s) dl (t_url x))) = None).
    { unfold table_json in H. apply bind_inv in H. destruct H as (r2 & _ & H). apply bind_inv in H. destruct H as (r3 & _ & H). apply bind_inv in H. destruct H as (rows & _ & H). destruct (io_end _); [discriminate H|reflexivity]. }
    apply reader_ends in En. destruct En as (rows & En). rewrite reader_raw in En. apply bind_inv in En. destruct En as ([raw e] & E & En). apply Ok_inj in En. cbn [fst snd] in En. injection En as _ ->. eauto. }
  destruct X as (raw & Er). destruct (number_rows_in dl raw) as (kept & recorded & K & R). exists raw, kept, (comments_in dl raw).
  split; [apply raw_at_ok; exact Er|]. split; [exact K|]. split; [apply comments_ok|]. intros Nd.
  rewrite reader_raw, Er in H. cbn [bind fst snd] in H. destruct (reader_yields dl raw kept recorded K R) as [Y _]. rewrite Y, map_map in H. cbn [fst snd] in H.
  assert (Dh : distinct_headers j). { unfold distinct_headers. rewrite <- Ec, map_map in Nd. exact Nd. }
  apply object_ok in H; [|exact Dh|exact Pc]. destruct H as (cs & E & O). unfold comments_for in E. rewrite Er in E. cbn [bind fst] in E. apply Ok_inj in E. subst cs. exact O.
Qed.
End Read.
