(** C83: compressed writing and the kind of output. *)
From Verif Require Export GzHandle PropsSink.
From Coq Require Import String List Lia.
Open Scope list_scope.

(** outputs over which GzipFile writes: without attribute mode, or with a text that starts
    with w, a or x *)
Inductive takes_gzip : mode_attr -> Prop :=
  | TakesNoMode : takes_gzip NoMode
  | TakesMode c m : c = 119%N (* w *) \/ c = 97%N (* a *) \/ c = 120%N (* x *) -> takes_gzip (ModeText (c :: m)).
(** what the others raise *)
Inductive refuses_gzip : mode_attr -> exn -> Prop :=
  | RefusesReader m : refuses_gzip (ModeText (114%N (* r *) :: m)) EOSError
  | RefusesText m : (forall c t, m = c :: t -> c <> 114%N /\ c <> 119%N /\ c <> 97%N /\ c <> 120%N) -> refuses_gzip (ModeText m) EValueError
  | RefusesOther : refuses_gzip ModeOther EAttributeError.

Lemma takes_or_refuses m : takes_gzip m \/ exists e, refuses_gzip m e.
Proof.
  destruct m as [|[|c m]|]; [left; constructor|right; eexists; apply RefusesText; discriminate| |right; eexists; constructor].
  destruct (N.eq_dec c 114) as [->|H1]; [right; eexists; constructor|].
  destruct (N.eq_dec c 119) as [->|H2]; [left; constructor; auto|].
  destruct (N.eq_dec c 97) as [->|H3]; [left; constructor; auto|].
  destruct (N.eq_dec c 120) as [->|H4]; [left; constructor; auto|].
  right. eexists. apply RefusesText. intros c' t E. injection E as <- _. auto.
Qed.
Lemma takes_open m : takes_gzip m -> gzip_open m = Ret true.
Proof. intros [|c t [->|[->| ->]]]; reflexivity. Qed.
Lemma refuses_open m e : refuses_gzip m e ->
  (gzip_open m = Ret false /\ e = EOSError) \/ gzip_open m = Raise e.
Proof.
  intros [t|t H|]; [left; split; reflexivity| |right; reflexivity].
  right. destruct t as [|c t]; [reflexivity|]. destruct (H c t eq_refl) as (A & C & D & F). unfold gzip_open.
  rewrite (proj2 (N.eqb_neq _ _) A), (proj2 (N.eqb_neq _ _) C), (proj2 (N.eqb_neq _ _) D), (proj2 (N.eqb_neq _ _) F). reflexivity.
Qed.

(** a record that write_to does not turn down at once: its payload file, if it has one, is
    unused *)
Definition writes (r : record) : Prop := r_cf r <> CF_unset /\ (has_cf r = true -> r_valid r = true).

(** over these outputs, what reaches them is what C17, C20 and the others say *)
Theorem C83_same_as_write_to : forall (g : gzipper) (m : mode_attr) (nl : bytes) (r : record) (st : stream),
  takes_gzip m -> write_gzip g m nl r st = write_to (Some g) nl r st.
Proof.
  intros g m nl r st H. unfold write_gzip. rewrite (takes_open m H). unfold write_to.
  destruct (r_cf r); try reflexivity; destruct (has_cf r && negb (r_valid r)); reflexivity.
Qed.
(** over all others writing a WARC record raises, nothing reaches the output, and the record
    and the stream are as before: it can still be written elsewhere *)
Theorem C83_refused_without_effect : forall (g : gzipper) (m : mode_attr) (e : exn) (nl : bytes) (r : record) (v : bytes) (st : stream),
  refuses_gzip m e -> writes r -> r_class r = RWarc v -> write_gzip g m nl r st = (Raise e, r, st, []).
Proof.
  intros g m e nl r v st H [Hc Hv] Hw. unfold write_gzip.
  assert (E : has_cf r && negb (r_valid r) = false) by (destruct (has_cf r); [rewrite Hv by reflexivity|]; reflexivity).
  assert (G : match gzip_open m with
         | Ret true => write_to (Some g) nl r st
         | Ret false => write_calls put_reader nl r st []
         | Raise e => (Raise e, r, st, [])
         | Diverge => (Diverge, r, st, [])
         end = (Raise e, r, st, [])).
  { destruct (refuses_open m e H) as [[-> ->]| ->]; [|reflexivity]. unfold write_calls, warc_calls. rewrite E, Hw.
    cbn [head_calls app put_all put_reader]. destruct (r_cf r); try reflexivity. contradiction. }
  rewrite E, G. destruct (r_cf r); try reflexivity. contradiction.
Qed.
(** so a compressed write succeeds exactly if the plain one does and the output is one of these *)
Theorem C83_succeeds_iff : forall (g : gzipper) (m : mode_attr) (r : record) (v : bytes) (st : stream), r_class r = RWarc v ->
  (fst (fst (fst (write_gzip g m CRLF r st))) = Ret tt <->
   fst (fst (fst (write_to None CRLF r st))) = Ret tt /\ takes_gzip m).
Proof.
  intros g m r v st Hw. assert (P : fst (write_to (Some g) CRLF r st) = fst (write_to None CRLF r st)) by apply C20_member_holds_plain_write.
  split.
  - intro H. destruct (takes_or_refuses m) as [T|[e R]].
    + split; [|exact T]. rewrite (C83_same_as_write_to _ _ _ _ _ T) in H. rewrite <- P. exact H.
    + exfalso. destruct (r_cf r) eqn:Ec; [unfold write_gzip in H; rewrite Ec in H; discriminate| | |];
      (destruct (has_cf r && negb (r_valid r)) eqn:E; [unfold write_gzip in H; rewrite Ec, E in H; discriminate|]);
      (rewrite (C83_refused_without_effect g m e CRLF r v st R) in H; [discriminate| |exact Hw]; split; [rewrite Ec; discriminate|];
       intro Hf; rewrite Hf in E; destruct (r_valid r); [reflexivity|discriminate]).
  - intros [H T]. rewrite (C83_same_as_write_to _ _ _ _ _ T), P. exact H.
Qed.
(** files: those opened for writing, appending or exclusive creation take compressed records,
    except 'w+'; those opened for reading and writing do not *)
Theorem C83_open_files : forall (k : open_kind) (plus : bool),
  takes_gzip (open_mode k plus) <-> k = OpenA \/ k = OpenX \/ (k = OpenW /\ plus = false).
Proof.
  intros k plus. split.
  - destruct k, plus; intro H; auto; exfalso; inversion H as [|c m [H1|[H1|H1]]]; subst; discriminate.
  - intros [->|[->|[-> ->]]]; try destruct plus; constructor; vm_compute; auto.
Qed.
Theorem C83_update_files : forall (g : gzipper) (k : open_kind) (nl : bytes) (r : record) (v : bytes) (st : stream),
  k = OpenR \/ k = OpenW -> writes r -> r_class r = RWarc v ->
  write_gzip g (open_mode k true) nl r st = (Raise EOSError, r, st, []).
Proof.
  intros g k nl r v st Hk Hr Hw. apply C83_refused_without_effect with (v := v); [|exact Hr|exact Hw].
  destruct Hk as [-> | ->]; apply RefusesReader.
Qed.

Example C83_case : takes_gzip NoMode /\ takes_gzip (open_mode OpenA true) /\ refuses_gzip (open_mode OpenW true) EOSError /\
  refuses_gzip ModeOther EAttributeError /\ refuses_gzip (ModeText (B "U")) EValueError /\
  exists r : record, writes r /\ r_class r = RWarc (B "WARC/1.0") /\
    fst (fst (fst (write_to None CRLF r (new_stream SPlain (mkfile [] 0 true) PWarc)))) = Ret tt /\
    snd (write_to None CRLF r (new_stream SPlain (mkfile [] 0 true) PWarc)) <> [].
Proof.
  split; [constructor|]. split; [apply C83_open_files; auto|]. split; [apply RefusesReader|]. split; [constructor|].
  split. { apply RefusesText. intros c t E. injection E as <- _. repeat split; discriminate. }
  exists (new_warc (B "WARC/1.0") [(B "WARC-Type", B "resource")] (Some (Some (B "text/plain"), Some (B "abc"))) [] (CF_none)).
  split; [split; [discriminate|intro H; discriminate]|]. split; [reflexivity|]. split; [vm_compute; reflexivity|vm_compute; discriminate].
Qed.
