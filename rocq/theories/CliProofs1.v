(** C64: reading the tables. *)
From Verif Require Import PyStr PyCsv Dsv DsvSpec DsvProofs4 Json NatLang Column ColumnSpec ColumnProofs Schema Table TableSpec TableProofs TableProofs2 QuietSpec QuietProofs
  Zip Locate LocateSpec Files Descr Load LoadSpec Warn WarnSpec Group GroupSpec Cli CliSpec.
From Coq Require Import Lia.

Lemma endswith_iff e s : endswith e s = true <-> ends_with s e.
Proof.
  unfold endswith, ends_with. rewrite startswith_spec. split; intros (r & H).
  - exists (rev r). rewrite <- (rev_involutive s), H, rev_app_distr, rev_involutive. reflexivity.
  - exists (rev r). rewrite H, rev_app_distr. reflexivity.
Qed.
Lemma filter_first {A} (f : A -> bool) l m rest : filter f l = m :: rest -> exists before after, l = before ++ m :: after /\ f m = true /\ forall x, In x before -> f x = false.
Proof.
  induction l as [|a l IH]; [discriminate|]. cbn [filter]. destruct (f a) eqn:E.
  - intros H. injection H as <- _. exists [], l. repeat split; [exact E|intros x []].
  - intros H. destruct (IH H) as (b & c & -> & Fm & Fb). exists (a :: b), c. repeat split; [exact Fm|]. intros x [<-|I]; [exact E|exact (Fb x I)].
Qed.
Lemma first_filter {A} (f : A -> bool) before m after : f m = true -> (forall x, In x before -> f x = false) -> exists rest, filter f (before ++ m :: after) = m :: rest.
Proof.
  intros Fm Fb. induction before as [|a b IH]; cbn [app filter].
  - rewrite Fm. eauto.
  - rewrite (Fb a (or_introl eq_refl)). apply IH. intros x I. apply Fb. right; exact I.
Qed.

Section Read.
Context {B V : Type} (sc : scalars V) (expand : pystr -> dict V -> res pystr) (lim : N) (env : fenv) (fs : files).

Theorem lax_reader_iff : (forall u d, exists s, expand u d = Ok s) -> forall cols, (forall c, In c cols -> st_separator (tc_st c) <> Some []) -> forall dl lang r,
  io_silent (iter_reader sc expand dl lang false false cols r) <-> exists rows, r = Ok (rows, None) /\ content_valid sc lang dl cols rows.
Proof.
  intros Tot cols Seps dl lang r. unfold iter_reader, content_valid. destruct r as [[rows endr]|e]; [|split; [intros [H _]; discriminate H|intros (r & H & _); discriminate H]].
  destruct (d_header dl).
  - destruct rows as [|[line hdr] rest].
    + split; [intros [H _]; cbn in H; exists []; subst; auto|intros (r & H & _); injection H as <- ->; split; reflexivity].
    + split.
      * intros H. assert (W : header_warnings lang cols hdr = []).
        { unfold iter_data in H. destruct (header_cols false cols hdr); [|destruct H as [H _]; discriminate H]. destruct (missing_required cols a); [destruct H as [H _]; discriminate H|]. destruct H as [_ H]. cbn [io_warns] in H. apply app_eq_nil in H. tauto. }
        apply header_warnings_iff in W. rewrite (iter_data_lax sc expand Tot cols Seps) in H by exact (proj1 W). destruct H as (_ & -> & D). exists ((line, hdr) :: rest). split; [reflexivity|]. right. exists line, hdr, rest. auto.
      * intros (r & H & [->|(l & h & d & -> & W & D)]); [discriminate H|]. injection H as -> -> -> ->. apply (iter_data_lax sc expand Tot cols Seps); [exact (proj1 W)|]. split; [apply header_warnings_iff; exact W|auto].
  - rewrite (iter_data_lax sc expand Tot cols Seps) by (right; apply colnames_short). split.
    + intros (_ & -> & D). exists rows. auto.
    + intros (r & H & D). injection H as -> ->. auto.
Qed.
Lemma iter_rows_end strict log cols rows endr : forall hc, io_end (iter_rows sc expand strict log cols hc rows endr) = None -> endr = None.
Proof.
  induction rows as [|[line row] rows IH]; intros hc H; [exact H|]. cbn [iter_rows] in H. destruct (ro_exn _); [discriminate H|]. exact (IH _ H).
Qed.
Lemma reader_ends dl lang strict log cols r : io_end (iter_reader sc expand dl lang strict log cols r) = None -> exists rows, r = Ok (rows, None).
Proof.
  assert (D : forall hdr ws rows endr, io_end (iter_data sc expand strict log cols hdr ws rows endr) = None -> endr = None).
  { intros hdr ws rows endr. unfold iter_data. destruct (header_cols strict cols hdr) as [hc|]; [|discriminate]. destruct (missing_required cols hc); [discriminate|]. apply iter_rows_end. }
  unfold iter_reader. destruct r as [[rows endr]|e]; [|discriminate]. intros H. exists rows. repeat f_equal. destruct (d_header dl); [destruct rows as [|[line hdr] rest]; [exact H|]|]; eapply D; exact H.
Qed.

(** the reader that a table is read with; None: there is none *)
Definition rows_reader (b : base) (dl : dialect) (url : pystr) : res (stream (nat * list pystr)) :=
  match resolve env b url with
  | Web u => match fe_get env u with Ok c => handle_with_line_number lim dl c | Err e => Err e end
  | Local p => match fs p with
               | Some (Plain t) => reader_with_line_number lim (Some dl) kw0 t
               | Some _ => Err OtherError
               | None => match fs (zip_path p) with
                         | Some (Archive ms) => match filter (fun m => endswith (basename p) (fst m)) ms with m :: _ => handle_with_line_number lim dl (snd m) | [] => Err IndexError end
                         | _ => Err OtherError
                         end
               end
  end.
Lemma iter_at_reader b dl strict log (t : ftable V) : iter_at sc expand lim env fs b dl strict log t = iter_reader sc expand dl (t_lang t) strict log (t_cols t) (rows_reader b dl (t_url t)).
Proof.
  unfold iter_at, rows_reader, iter_url, iter_file. destruct (resolve env b (t_url t)) as [u|p].
  - destruct (fe_get env u); reflexivity.
  - destruct (fs p) as [[]|]; try reflexivity. destruct (fs (zip_path p)) as [[|ms|]|]; try reflexivity. destruct (filter _ ms); reflexivity.
Qed.
Lemma rows_at_iff b dl url rows : rows_reader b dl url = Ok (rows, None) <-> rows_at lim env fs b dl url rows.
Proof.
  unfold rows_reader. split.
  - destruct (resolve env b url) as [u|p] eqn:R.
    + destruct (fe_get env u) as [c|] eqn:G; [|discriminate]. intros H. exact (ra_web _ _ _ _ _ _ _ u c R G H).
    + destruct (fs p) as [[t|m|]|] eqn:F; try discriminate; [intros H; exact (ra_file _ _ _ _ _ _ _ p t R F H)|].
      destruct (fs (zip_path p)) as [[|ms|]|] eqn:Z; try discriminate. destruct (filter _ ms) as [|m rest] eqn:Fl; [discriminate|]. intros H.
      apply filter_first in Fl. destruct Fl as (before & after & -> & Fm & Fb). destruct m as [name text]. eapply (ra_zip _ _ _ _ _ _ _ p before name text after R F Z); [apply endswith_iff; exact Fm| |exact H].
      intros n t I E. apply endswith_iff in E. specialize (Fb _ I). cbn [fst] in Fb. congruence.
  - intros [p text R F H|p before name text after R F Z E Eb H|u text R G H]; rewrite R; [rewrite F; exact H| |rewrite G; exact H].
    rewrite F. unfold zip_path. rewrite Z. destruct (first_filter (fun m => endswith (basename p) (fst m)) before (name, text) after) as [rest ->]; [apply endswith_iff; exact E| |exact H].
    intros [n t] I. apply not_true_iff_false. intros X. apply endswith_iff in X. exact (Eb n t I X).
Qed.
(** the gtable of a checked table *)
Definition gtable_of (x : checked (V := V)) : gtable :=
  to_gtable sc expand lim env fs (ck_base x) (ck_base2 x) (ck_dialect x) {| k_table := ck_table x; k_pk := ck_pk x; k_fks := ck_fks x |}.
Lemma read_as_gtable x : read_as sc expand lim env fs x (gtable_of x).
Proof.
  split; try reflexivity; cbn [gtable_of to_gtable g_iter k_table].
  - intros rows H. apply rows_at_iff in H. rewrite iter_at_reader, H. reflexivity.
  - intros rows H. apply rows_at_iff in H. rewrite iter_at_reader, H. reflexivity.
  - rewrite iter_at_reader. intros H. apply reader_ends in H. destruct H as [rows H]. exists rows. apply rows_at_iff. exact H.
  - rewrite iter_at_reader. intros H. apply reader_ends in H. destruct H as [rows H]. exists rows. apply rows_at_iff. exact H.
Qed.
Lemma quiet_gtable : (forall u d, exists s, expand u d = Ok s) -> forall x, (forall c, In c (t_cols (ck_table x)) -> st_separator (tc_st c) <> Some []) ->
  (reads_quietly (gtable_of x) <-> file_valid sc lim env fs x).
Proof.
  intros Tot x Seps. unfold reads_quietly, file_valid. cbn [gtable_of to_gtable g_lax k_table]. rewrite iter_at_reader.
  pose proof (lax_reader_iff Tot _ Seps (ck_dialect x) (t_lang (ck_table x)) (rows_reader (ck_base x) (ck_dialect x) (t_url (ck_table x)))) as L. unfold io_silent in L. rewrite L.
  split; intros (rows & H & C); exists rows; (split; [apply rows_at_iff; exact H|exact C]).
Qed.
End Read.
