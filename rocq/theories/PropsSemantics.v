(** C96: names and classes of status codes and methods. *)
From Verif Require Import HttpBody.
From Verif Require Export Semantics.
From Coq Require Import String List Lia ZArith.
Open Scope list_scope.

(** ** Specification *)
(** the class of a code by its hundreds (RFC 7231 section 6) *)
Definition hundreds (r : range_name) : option Z :=
  match r with Informational => Some 1 | Successful => Some 2 | Redirection => Some 3 | ClientError => Some 4 | ServerError => Some 5 | NoBody => None end%Z.
(** two names for the same code *)
Inductive same_code : string -> string -> Prop :=
| Range415 : same_code "unsupported_media_type" "requested_range_not_satisfiable"
| Server501 : same_code "internal_server_error" "not_implemented".

(** ** C96 *)
(** a number is in a class exactly if it has that many hundreds; so in at most one, and in one exactly from 100 to 599 *)
Theorem C96_classes : forall r h c, hundreds r = Some h -> (in_codes r (Number c) = Ret true <-> (c / 100 = h)%Z).
Proof.
  intros r h c Hr. unfold in_codes. assert (E : range_holds r c = ((100 * h <=? c) && (c <? 100 * h + 100))%Z) by (destruct r; cbn [hundreds] in Hr; try discriminate; injection Hr as <-; reflexivity).
  rewrite E. split; intro H.
  - assert (H' : ((100 * h <=? c) && (c <? 100 * h + 100))%Z = true) by congruence. apply andb_prop in H' as [H1 H2]. apply Z.leb_le in H1. apply Z.ltb_lt in H2.
    symmetry. refine (Z.div_unique c 100 h (c - 100 * h)%Z _ _); lia.
  - pose proof (Z.div_mod c 100 ltac:(lia)) as D. pose proof (Z.mod_pos_bound c 100 ltac:(lia)) as M. f_equal. apply andb_true_intro. split; [apply Z.leb_le|apply Z.ltb_lt]; lia.
Qed.
Theorem C96_one_class : forall c, (100 <= c <= 599)%Z <-> exists r h, hundreds r = Some h /\ in_codes r (Number c) = Ret true.
Proof.
  intro c. split.
  - intro H. assert (D : (1 <= c / 100 <= 5)%Z).
    { split; [apply (Z.div_le_lower_bound c 100 1); lia|]. assert (c / 100 < 6)%Z by (apply Z.div_lt_upper_bound; lia). lia. }
    assert (X : (c / 100 = 1 \/ c / 100 = 2 \/ c / 100 = 3 \/ c / 100 = 4 \/ c / 100 = 5)%Z) by lia.
    destruct X as [X|[X|[X|[X|X]]]].
    + exists Informational, 1%Z. split; [reflexivity|]. apply (C96_classes Informational 1 c eq_refl), X.
    + exists Successful, 2%Z. split; [reflexivity|]. apply (C96_classes Successful 2 c eq_refl), X.
    + exists Redirection, 3%Z. split; [reflexivity|]. apply (C96_classes Redirection 3 c eq_refl), X.
    + exists ClientError, 4%Z. split; [reflexivity|]. apply (C96_classes ClientError 4 c eq_refl), X.
    + exists ServerError, 5%Z. split; [reflexivity|]. apply (C96_classes ServerError 5 c eq_refl), X.
  - intros (r & h & Hr & H). destruct r; cbn [hundreds] in Hr; try discriminate; unfold in_codes, range_holds in H; injection H as H; apply andb_prop in H as [H1 H2];
      apply Z.leb_le in H1; apply Z.ltb_lt in H2; lia.
Qed.
Theorem C96_not_two_classes : forall r1 r2 h1 h2 c, hundreds r1 = Some h1 -> hundreds r2 = Some h2 ->
  in_codes r1 (Number c) = Ret true -> in_codes r2 (Number c) = Ret true -> r1 = r2.
Proof.
  intros r1 r2 h1 h2 c H1 H2 E1 E2. apply (C96_classes _ _ c H1) in E1. apply (C96_classes _ _ c H2) in E2. assert (h1 = h2) by congruence. subst h2.
  destruct r1, r2; cbn in H1, H2; try reflexivity; congruence.
Qed.
(** what is not a number (the code of a header that has none, for instance) is in no range: the question raises *)
Theorem C96_not_a_number : forall r, in_codes r NotNumber = Raise ETypeError.
Proof. reflexivity. Qed.
(** every name stands with its class, and two different names have different codes but for two pairs *)
Theorem C96_names_in_class : forall r n c, In (n, c) (named r) -> in_codes r (Number c) = Ret true.
Proof. intros r n c H. destruct r; cbn [named In] in H; repeat (destruct H as [H|H]; [injection H as <- <-; reflexivity|]); destruct H. Qed.
Theorem C96_names_apart : forall n1 n2 c, In (n1, c) all_named -> In (n2, c) all_named -> n1 = n2 \/ same_code n1 n2 \/ same_code n2 n1.
Proof.
  assert (X : forallb (fun a => forallb (fun b => negb (Z.eqb (snd a) (snd b)) || String.eqb (fst a) (fst b) ||
      (String.eqb (fst a) "unsupported_media_type" && String.eqb (fst b) "requested_range_not_satisfiable") ||
      (String.eqb (fst b) "unsupported_media_type" && String.eqb (fst a) "requested_range_not_satisfiable") ||
      (String.eqb (fst a) "internal_server_error" && String.eqb (fst b) "not_implemented") ||
      (String.eqb (fst b) "internal_server_error" && String.eqb (fst a) "not_implemented")) all_named) all_named = true) by (vm_compute; reflexivity).
  intros n1 n2 c H1 H2. rewrite forallb_forall in X. specialize (X _ H1). rewrite forallb_forall in X. specialize (X _ H2). cbn [fst snd] in X.
  rewrite Z.eqb_refl in X. cbn [negb orb] in X. rewrite !Bool.orb_true_iff, !Bool.andb_true_iff, !String.eqb_eq in X.
  destruct X as [[[[X|[-> ->]]|[-> ->]]|[-> ->]]|[-> ->]]; [left; exact X|right; left|right; right|right; left|right; right]; constructor.
Qed.
(** the codes of RFC 7231 (Internal Server Error, Range Not Satisfiable) that have no name for that reason *)
Theorem C96_missing_names : forall n, ~ In (n, 500%Z) all_named /\ ~ In (n, 416%Z) all_named.
Proof. intro n. split; intro H; cbn in H; repeat (destruct H as [H|H]; [discriminate|]); destruct H. Qed.
(** a code without body: informational, no_content or not_modified, and nothing else *)
Theorem C96_codes_without_body : forall c,
  in_codes NoBody (Number c) = Ret true <->
  in_codes Informational (Number c) = Ret true \/ In ("no_content"%string, c) all_named \/ In ("not_modified"%string, c) all_named.
Proof.
  intro c. assert (A : forall n, In (n, c) all_named -> n = "no_content"%string -> c = 204%Z) by (intros n H ->; cbn in H; repeat (destruct H as [H|H]; [congruence|]); destruct H).
  assert (A2 : forall n, In (n, c) all_named -> n = "not_modified"%string -> c = 304%Z) by (intros n H ->; cbn in H; repeat (destruct H as [H|H]; [congruence|]); destruct H).
  unfold in_codes, range_holds, code_no_body. split.
  - intro H. injection H as H. apply orb_prop in H as [H|H]; [apply orb_prop in H as [H|H]|].
    + left. rewrite H. reflexivity.
    + right. left. apply Z.eqb_eq in H. subst c. cbn. tauto.
    + right. right. apply Z.eqb_eq in H. subst c. cbn. tauto.
  - intros [H|[H|H]].
    + injection H as H. rewrite H. reflexivity.
    + rewrite (A _ H eq_refl). reflexivity.
    + rewrite (A2 _ H eq_refl). reflexivity.
Qed.
(** the parser gives a response a body exactly if neither its status nor the method it answers is one without body; method names
    are compared exactly *)
Theorem C96_parser_agrees : forall rm v c p ign,
  has_body (new_hdr (KResponse rm v c p) ign) = true <-> in_methods BodyLess rm = false /\ in_codes NoBody (Number c) = Ret false.
Proof.
  intros rm v c p ign. unfold has_body. cbn [new_hdr h_kind]. unfold in_codes, range_holds. change (in_methods BodyLess rm) with (method_no_body rm).
  destruct (method_no_body rm), (code_no_body c); cbn; split; intro H; try discriminate; try (split; reflexivity); try reflexivity; destruct H as [H1 H2]; discriminate.
Qed.
Theorem C96_methods : forall m,
  (in_methods BodyLess m = true <-> m = B "HEAD") /\
  (in_methods Cacheable m = true -> in_methods Safe m = true) /\
  (in_methods BodyLess m = true -> in_methods Safe m = true) /\
  (in_methods Idempotent m = true -> in_methods Safe m = false).
Proof.
  assert (K : forall s m, in_methods s m = true <-> In m (members s)).
  { intros s m. unfold in_methods, in_list. rewrite existsb_exists. split; [intros (x & H & E); apply bytes_eqb_eq in E; subst; exact H|intro H; exists m; split; [exact H|apply bytes_eqb_eq; reflexivity]]. }
  intro m. split; [|split; [|split]].
  - rewrite K. cbn. split; [intros [<-|[]]; reflexivity|intros ->; left; reflexivity].
  - rewrite !K. cbn. intros [<-|[]]. left. reflexivity.
  - rewrite !K. cbn. intros [<-|[]]. right. left. reflexivity.
  - rewrite K. cbn. intros [<-|[<-|[]]]; reflexivity.
Qed.
Example C96_case : in_codes ClientError (Number 499) = Ret true /\ in_codes ClientError (Number 500) = Ret false /\
  in_codes NoBody (Number 304) = Ret true /\ in_codes NoBody (Number 205) = Ret false /\ In ("not_found"%string, 404%Z) all_named /\ in_methods BodyLess (B "head") = false.
Proof. repeat split; try reflexivity. vm_compute. tauto. Qed.
