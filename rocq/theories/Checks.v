(** Boolean tests for the well-formedness predicates of the specification, used
    to show that concrete examples meet the hypotheses of the theorems. *)
From Verif Require Export WarcWrite.
From Coq Require Import String List.
Open Scope list_scope.

Definition no_byteb (c : N) (s : bytes) : bool := forallb (fun x => negb (N.eqb x c)) s.
Lemma no_byteb_sound c s : no_byteb c s = true -> ~ In c s.
Proof. intros H Hi. unfold no_byteb in H. rewrite forallb_forall in H. apply H in Hi. rewrite N.eqb_refl in Hi. discriminate. Qed.
Definition tidyb (s : bytes) : bool := bytes_eqb (strip s) s.
Definition value_okb (v : bytes) : bool := no_byteb 10 v && tidyb v.
Definition name_okb (n : bytes) : bool := no_byteb 10 n && no_byteb 58 n && tidyb n.
Definition header_okb (h : header) : bool := name_okb (fst h) && value_okb (snd h).
Lemma value_okb_sound v : value_okb v = true -> value_ok v.
Proof. intro H. apply andb_true_iff in H as [H1 H2]. split; [apply (no_byteb_sound 10); exact H1|]. apply bytes_eqb_eq. exact H2. Qed.
Lemma name_okb_sound v : name_okb v = true -> name_ok v.
Proof.
  intro H. apply andb_true_iff in H as [H H3]. apply andb_true_iff in H as [H1 H2].
  split; [apply (no_byteb_sound 10); exact H1|]. split; [apply (no_byteb_sound 58); exact H2|]. apply bytes_eqb_eq. exact H3.
Qed.
Lemma header_okb_sound h : header_okb h = true -> header_ok h.
Proof. intro H. apply andb_true_iff in H as [H1 H2]. split; [apply name_okb_sound|apply value_okb_sound]; assumption. Qed.
Definition header_cleanb (h : header) : bool :=
  (if same_nameb (fst h) (B "Content-Type") then negb (bytes_eqb (snd h) []) else true) &&
  (if same_nameb (fst h) (B "Content-Length") then match py_int 10 (snd h) with Some _ => true | None => false end else true).
Lemma header_cleanb_sound h : header_cleanb h = true -> header_clean h.
Proof.
  intro H. apply andb_true_iff in H as [H1 H2]. unfold same_nameb in *. split; unfold same_name; intro E; rewrite E, bytes_eqb_refl in *.
  - intro E2. rewrite E2 in H1. discriminate.
  - destruct (py_int 10 (snd h)); [eauto|discriminate].
Qed.
Definition wrec_okb (w : wrec) : bool :=
  in_list (w_version w) versions && forallb header_okb (w_headers w) && forallb header_cleanb (w_headers w) &&
  Z.eqb (declared_length (w_headers w) 0) (Z.of_nat (List.length (w_body w))).
Lemma forallb_sound {A} (f : A -> bool) (P : A -> Prop) l : (forall x, f x = true -> P x) -> forallb f l = true -> Forall P l.
Proof. intros H Hl. apply Forall_forall. intros x Hi. rewrite forallb_forall in Hl. auto. Qed.
Lemma wrec_okb_sound w : wrec_okb w = true -> wrec_ok w.
Proof.
  intro H. apply andb_true_iff in H as [H H4]. apply andb_true_iff in H as [H H3]. apply andb_true_iff in H as [H1 H2].
  split; [apply in_list_In; exact H1|]. split; [apply (forallb_sound header_okb); [apply header_okb_sound|exact H2]|].
  split; [apply (forallb_sound header_cleanb); [apply header_cleanb_sound|exact H3]|]. apply Z.eqb_eq. exact H4.
Qed.
Definition sep_okb (s : bytes) : bool :=
  forallb (fun c => N.eqb c 13 || N.eqb c 10) s && (match rev s with [] => true | c :: _ => N.eqb c 10 end).
Lemma sep_okb_sound s : sep_okb s = true -> sep_ok s.
Proof.
  intro H. apply andb_true_iff in H as [H1 H2]. split.
  - intros c Hi. rewrite forallb_forall in H1. apply H1 in Hi. apply orb_true_iff in Hi as [E|E]; apply N.eqb_eq in E; auto.
  - destruct (rev s) as [|c t] eqn:E.
    + left. rewrite <- (rev_involutive s), E. reflexivity.
    + right. apply N.eqb_eq in H2. subst c. exists (rev t). rewrite <- (rev_involutive s), E. reflexivity.
Qed.
Definition archive_okb (a : archive) : bool := forallb (fun p => wrec_okb (fst p) && sep_okb (snd p)) a.
Lemma archive_okb_sound a : archive_okb a = true -> archive_ok a.
Proof.
  apply forallb_sound. intros [w s] H. apply andb_true_iff in H as [H1 H2].
  split; [apply wrec_okb_sound|apply sep_okb_sound]; assumption.
Qed.
Definition source_okb (x : source) : bool :=
  match x with
  | FromTuple v hs ct body =>
      in_list v versions && forallb header_okb hs &&
      forallb (fun h => supplied_by_content h || header_cleanb h) hs &&
      (match ct with Some c => value_okb c | None => true end)
  | FromFile v hs rd => wrec_okb (mkw v hs (yields rd))
  end.
Lemma source_okb_sound x : source_okb x = true -> source_ok x.
Proof.
  destruct x as [v hs ct body|v hs rd]; [|apply wrec_okb_sound].
  intro H. apply andb_true_iff in H as [H H4]. apply andb_true_iff in H as [H H3]. apply andb_true_iff in H as [H1 H2].
  split; [apply in_list_In; exact H1|]. split; [apply (forallb_sound header_okb); [apply header_okb_sound|exact H2]|]. split.
  - revert H3. apply forallb_sound. intros h Hh E. rewrite E in Hh. apply header_cleanb_sound. exact Hh.
  - destruct ct as [c|]; [apply value_okb_sound; exact H4|exact I].
Qed.
