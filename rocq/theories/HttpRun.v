(** Feeding a message parser piece by piece, and what every feed preserves. *)
From Verif Require Export HttpSplit.
From Coq Require Import String List Lia.
Open Scope list_scope.

(** no reader before the body; a reader only where there is a body *)
Definition binv (m : msg) : Prop :=
  (m_mode m = Start \/ m_mode m = Headers -> m_reader m = None) /\
  (m_reader m <> None -> has_body (m_head m) = true).
Lemma hinv_binv m : hinv m -> binv m. Proof. intros (_ & A & _ & B). split; assumption. Qed.
Lemma binv_none m : m_reader m = None -> binv m. Proof. intro H. split; [auto|congruence]. Qed.

Lemma feed_line_reader m text l t m' : feed_line m text = (l, t, m') -> m_reader m' = m_reader m /\ m_head m' = m_head m /\ m_mode m' = m_mode m.
Proof. intro H. apply feed_line_keeps in H as (A & _ & B & C & _). auto. Qed.
Lemma feed_start_reader m text m' t : feed_start m text = Ret (m', t) -> m_reader m' = m_reader m.
Proof.
  unfold feed_start. destruct (feed_line m text) as [[[l|] t1] m1] eqn:E; apply feed_line_reader in E as (E & _ & _).
  - destruct (in_list l NEWLINES); [intro H; injection H as <- <-; exact E|]. destruct (set_start_line _ l); try discriminate. intro H. injection H as <- <-. exact E.
  - intro H. injection H as <- <-. exact E.
Qed.
Lemma feed_headers_reader f : forall m text m' t, feed_headers f m text = Ret (m', t) -> m_reader m' = m_reader m.
Proof.
  induction f as [|f IH]; intros m text m' t H; [discriminate|]. cbn [feed_headers] in H. destruct text as [|c x]; [injection H as <- <-; reflexivity|].
  destruct (feed_line m (c :: x)) as [[[l|] t1] m1] eqn:E; apply feed_line_reader in E as (E & _ & _).
  - destruct (add_header_line _ l); try discriminate. cbn [bind] in H. destruct (in_list l NEWLINES); [injection H as <- <-; exact E|]. apply IH in H. rewrite H. exact E.
  - apply IH in H. congruence.
Qed.
Definition same_kind (m m' : msg) : Prop := h_kind (m_head m') = h_kind (m_head m) /\ h_mode (m_head m') = h_mode (m_head m) /\ is_chunk m'.
Lemma sk_refl m : is_chunk m -> same_kind m m. Proof. intro. split; [|split]; auto. Qed.
Lemma sk_trans a b c : same_kind a b -> same_kind b c -> same_kind a c.
Proof. intros (A & B & _) (C & D & E). split; [congruence|]. split; [congruence|exact E]. Qed.
Lemma chunk_start_kind m s r text m' t : chunk_start m s r text = Ret (Some (m', t)) -> same_kind m m'.
Proof.
  unfold chunk_start. destruct (feed_line m text) as [[[l|] t1] m1] eqn:E; apply feed_line_reader in E as (_ & E & _).
  - destruct (py_int 16 _) as [n|]; [|destruct s; discriminate]. intro H. injection H as <- <-. unfold same_kind. cbn. rewrite E. split; [|split]; [auto..|eexists _, _, _; reflexivity].
  - intro H. injection H as <- <-. unfold same_kind. cbn. rewrite E. split; [|split]; [auto..|eexists _, _, _; reflexivity].
Qed.
Lemma chunk_chunk_kind m s r text m' t : chunk_chunk m s r text = (m', t) -> same_kind m m'.
Proof.
  unfold chunk_chunk. destruct (if (0 <? r)%Z then _ else _) as [[r1 t1] m1] eqn:E.
  assert (E1 : m_head m1 = m_head m) by (destruct (0 <? r)%Z; injection E as <- <- <-; reflexivity). clear E.
  destruct (r1 =? 0)%Z.
  - destruct (feed_line m1 t1) as [[[l|] t2] m2] eqn:E; apply feed_line_reader in E as (_ & E & _); intro H; injection H as <- <-; unfold same_kind; cbn; rewrite E, E1; (split; [|split]; [auto..|eexists _, _, _; reflexivity]).
  - intro H. injection H as <- <-. unfold same_kind; cbn; rewrite E1. split; [|split]; [auto..|eexists _, _, _; reflexivity].
Qed.
Lemma chunk_trailer_kind m s r text m' t : is_chunk m -> chunk_trailer m s r text = Ret (m', t) -> same_kind m m'.
Proof.
  intro Hc. unfold chunk_trailer. destruct (feed_line m text) as [[[l|] t1] m1] eqn:E; apply feed_line_reader in E as (Er & E & _).
  - destruct (add_trailer_line _ l) as [h| |] eqn:Et; try discriminate. cbn [bind]. intro H. injection H as <- <-. apply trailer_keeps in Et as [K1 K2].
    unfold same_kind. cbn. rewrite K1, K2, E. split; [|split]; [auto..|eexists _, _, _; reflexivity].
  - intro H. injection H as <- <-. unfold same_kind, is_chunk. rewrite E, Er. auto.
Qed.
Lemma chunk_pass_kind m text m' t : is_chunk m -> chunk_pass m text = Ret (Some (m', t)) -> same_kind m m'.
Proof.
  intro Hc. unfold chunk_pass. set (x := match m_reader m with Some (RChunk CStart st r) => _ | _ => _ end).
  destruct x as [[[m1 t1]|]| |] eqn:Ex; try discriminate. cbn [bind].
  assert (S1 : same_kind m m1).
  { unfold x in Ex. destruct (m_reader m) as [[[] s r|r|z r]|] eqn:Er; try (injection Ex as <- <-; apply sk_refl, Hc). eapply chunk_start_kind, Ex. }
  set (y := match m_reader m1 with Some (RChunk CChunk st r) => _ | _ => _ end). destruct y as [m2 t2] eqn:Ey.
  assert (S2 : same_kind m m2).
  { unfold y in Ey. destruct (m_reader m1) as [[[] s r|r|z r]|] eqn:Er; try (injection Ey as <- <-; exact S1). destruct (empty_text t1); [injection Ey as <- <-; exact S1|]. eapply sk_trans; [exact S1|eapply chunk_chunk_kind, Ey]. }
  clear Ex Ey x y. destruct (m_reader m2) as [[[] s r|r|z r]|] eqn:Er; try (intro H; injection H as <- <-; exact S2).
  destruct (empty_text t2); [intro H; injection H as <- <-; exact S2|].
  destruct (chunk_trailer m2 s r t2) as [[m3 t3]| |] eqn:E; try discriminate. intro H. injection H as <- <-. eapply sk_trans; [exact S2|]. eapply chunk_trailer_kind, E. apply S2.
Qed.
Lemma chunk_feed_kind f : forall m text m' t, is_chunk m -> chunk_feed f m text = Ret (Some (m', t)) -> same_kind m m'.
Proof.
  induction f as [|f IH]; intros m text m' t Hc H; [discriminate|]. cbn [chunk_feed] in H. destruct text as [|c x]; [injection H as <- <-; apply sk_refl, Hc|].
  destruct (chunk_pass m (c :: x)) as [[[m1 t1]|]| |] eqn:E; try discriminate. cbn [bind] in H. apply chunk_pass_kind in E; [|exact Hc].
  destruct (m_reader m1) as [[[] s r|r|z r]|] eqn:Er; try (eapply sk_trans; [exact E|eapply IH; [apply E|exact H]]).
  injection H as <- <-. destruct E as (A & B & C). split; [|split]; [exact A|exact B|exact C].
Qed.
Lemma chunk_pass_mode m text m' t : chunk_pass m text = Ret (Some (m', t)) -> m_mode m' = m_mode m.
Proof.
  unfold chunk_pass. set (x := match m_reader m with Some (RChunk CStart st r) => _ | _ => _ end).
  destruct x as [[[m1 t1]|]| |] eqn:Ex; try discriminate. cbn [bind].
  assert (S1 : m_mode m1 = m_mode m).
  { unfold x in Ex. destruct (m_reader m) as [[[] s r|r|z r]|] eqn:Er; try (injection Ex as <- <-; reflexivity).
    unfold chunk_start in Ex. destruct (feed_line m text) as [[[l|] t2] m2] eqn:E; apply feed_line_reader in E as (_ & _ & E).
    - destruct (py_int 16 _) as [n|]; [|destruct s; discriminate]. injection Ex as <- <-. exact E.
    - injection Ex as <- <-. exact E. }
  set (y := match m_reader m1 with Some (RChunk CChunk st r) => _ | _ => _ end). destruct y as [m2 t2] eqn:Ey.
  assert (S2 : m_mode m2 = m_mode m).
  { unfold y in Ey. destruct (m_reader m1) as [[[] s r|r|z r]|] eqn:Er; try (injection Ey as <- <-; exact S1). destruct (empty_text t1); [injection Ey as <- <-; exact S1|]. rewrite <- S1.
    unfold chunk_chunk in Ey. destruct (if (0 <? r)%Z then _ else _) as [[r1 t3] m3] eqn:E.
    assert (E1 : m_mode m3 = m_mode m1) by (destruct (0 <? r)%Z; injection E as <- <- <-; reflexivity). clear E. destruct (r1 =? 0)%Z.
    - destruct (feed_line m3 t3) as [[[l|] t4] m4] eqn:E; apply feed_line_reader in E as (_ & _ & E); injection Ey as <- <-; cbn; congruence.
    - injection Ey as <- <-. exact E1. }
  clear Ex Ey x y. destruct (m_reader m2) as [[[] s r|r|z r]|] eqn:Er; try (intro H; injection H as <- <-; exact S2).
  destruct (empty_text t2); [intro H; injection H as <- <-; exact S2|]. unfold chunk_trailer.
  destruct (feed_line m2 t2) as [[[l|] t4] m4] eqn:E; apply feed_line_reader in E as (_ & _ & E).
  - destruct (add_trailer_line _ l); try discriminate. cbn [bind]. intro H. injection H as <- <-. cbn. congruence.
  - cbn [bind]. intro H. injection H as <- <-. congruence.
Qed.
Lemma chunk_feed_mode f : forall m text m' t, m_mode m = Body -> chunk_feed f m text = Ret (Some (m', t)) -> m_mode m' = Body \/ m_mode m' = End.
Proof.
  induction f as [|f IH]; intros m text m' t Hm H; [discriminate|]. cbn [chunk_feed] in H. destruct text as [|c x]; [injection H as <- <-; auto|].
  destruct (chunk_pass m (c :: x)) as [[[m1 t1]|]| |] eqn:E; try discriminate. cbn [bind] in H. apply chunk_pass_mode in E. rewrite Hm in E.
  destruct (m_reader m1) as [[[] s r|r|z r]|] eqn:Er; try (apply IH in H; [exact H|exact E]). injection H as <- <-. auto.
Qed.

Section G.
Variable gz : bytes -> outcome bytes.
Lemma begin_body_binv m text m' : m_reader m = None -> m_mode m = Body -> begin_body gz m text = Ret m' -> binv m'.
Proof.
  intros Hr Hm H. pose proof (begin_body_mode _ _ _ _ Hm H) as Hm'. split; [destruct Hm' as [-> | ->]; intros [X|X]; discriminate|].
  unfold begin_body in H. destruct (has_body (m_head m)) eqn:Eh; cbn [negb] in H; [|injection H as <-; contradiction].
  intros _. destruct (body_is_chunked (m_head m)); [injection H as <-; exact Eh|].
  destruct (body_length (m_head m)) as [n|]; [|injection H as <-; exact Eh].
  match type of H with bind ?x _ = _ => destruct x as [rd| |] end; try discriminate. cbn [bind] in H. injection H as <-. destruct (_ =? 0)%Z; exact Eh.
Qed.
Lemma feed_body_binv m text m' t : m_mode m = Body -> binv m -> feed_body m text = Ret (m', t) -> binv m' /\ (zipped m -> zipped m') /\ (m_mode m' = Body \/ m_mode m' = End).
Proof.
  intros Hm [A B] H. unfold feed_body in H.
  assert (Raw : forall m1, m_reader m1 = None -> m_mode m1 = Body -> raw_body m1 text = Ret (m', t) -> binv m' /\ m_mode m' = Body /\ m_reader m' = None).
  { intros m1 E Em. unfold raw_body. destruct (m_chunks m1) as [|[o n] [|q l]]; try discriminate. intro X. injection X as <- <-. split; [|auto]. apply binv_none. exact E. }
  destruct (m_reader m) as [[c s r|r|z r]|] eqn:Er.
  - split; [|split].
    + destruct (chunk_feed _ m text) as [[[m1 t1]|]| |] eqn:E; try discriminate; cbn [bind] in H.
      * injection H as <- <-. pose proof (chunk_feed_mode _ _ _ _ _ Hm E) as Hm'. apply chunk_feed_kind in E as (K1 & K2 & _); [|eexists _, _, _; exact Er].
        split; [destruct Hm' as [-> | ->]; intros [X|X]; discriminate|]. intros _. rewrite (has_body_keeps _ _ K1 K2). apply B. discriminate.
      * apply Raw in H; [apply H|reflexivity|exact Hm].
    + intros (z0 & r0 & X). congruence.
    + destruct (chunk_feed _ m text) as [[[m1 t1]|]| |] eqn:E; try discriminate; cbn [bind] in H.
      * injection H as <- <-. apply (chunk_feed_mode _ _ _ _ _ Hm E).
      * apply Raw in H; [left; apply H|reflexivity|exact Hm].
  - injection H as H. unfold length_feed in H. destruct (if (0 <? r)%Z then _ else _) as [[r1 t1] m1] eqn:E. injection H as <- <-.
    assert (K : m_head m1 = m_head m /\ m_mode m1 = m_mode m) by (destruct (0 <? r)%Z; injection E as <- <- <-; auto). destruct K as [K1 K2].
    assert (Hb : has_body (m_head m) = true) by (apply B; discriminate). rewrite <- K1 in Hb. rewrite Hm in K2.
    destruct (r1 <=? 0)%Z; (split; [split; [cbn; rewrite ?K2; intros [X|X]; discriminate|intros _; exact Hb]|]); (split; [intros (z0 & r0 & X); congruence|]); cbn; auto.
  - injection H as H. unfold zip_feed in H. destruct (if (0 <? r)%Z then _ else _) as [[r1 t1] m1] eqn:E. injection H as <- <-.
    assert (K : m_head m1 = m_head m /\ m_mode m1 = m_mode m) by (destruct (0 <? r)%Z; injection E as <- <- <-; auto). destruct K as [K1 K2].
    assert (Hb : has_body (m_head m) = true) by (apply B; discriminate). rewrite <- K1 in Hb. rewrite Hm in K2.
    destruct (r1 <=? 0)%Z; (split; [split; [cbn; rewrite ?K2; intros [X|X]; discriminate|intros _; exact Hb]|]); (split; [intros _; eexists _, _; reflexivity|]); cbn; auto.
  - apply Raw in H as (H1 & H2 & H3); [|exact Er|exact Hm]. split; [exact H1|]. split; [intros (z0 & r0 & X); congruence|auto].
Qed.
Theorem base_feed_binv m text m' t : binv m -> base_feed gz m text = Ret (m', t) -> binv m' /\ (zipped m -> zipped m').
Proof.
  intros Hi H. unfold base_feed in H.
  match type of H with bind ?x _ = _ => destruct x as [[m1 t1]| |] eqn:E1 end; try discriminate. cbn [bind] in H.
  assert (H1 : binv m1 /\ (zipped m -> zipped m1)).
  { destruct (m_mode m) eqn:Em; try (injection E1 as <- <-; auto). destruct (empty_text text); [injection E1 as <- <-; auto|].
    apply feed_start_reader in E1. pose proof (proj1 Hi (or_introl Em)) as E. split; [apply binv_none; congruence|]. intros (z0 & r0 & X). congruence. }
  destruct H1 as [H1 Z1]. clear E1.
  match type of H with bind ?x _ = _ => destruct x as [[m2 t2]| |] eqn:E2 end; try discriminate. cbn [bind] in H.
  assert (H2 : binv m2 /\ (zipped m -> zipped m2)).
  { destruct (m_mode m1) eqn:Em; try (injection E2 as <- <-; auto). destruct (empty_text t1); [injection E2 as <- <-; auto|].
    pose proof (proj1 H1 (or_intror Em)) as E.
    destruct (feed_headers _ m1 t1) as [[m3 t3]| |] eqn:E3; try discriminate. cbn [bind] in E2. apply feed_headers_reader in E3. rewrite E in E3.
    assert (Nz : zipped m -> zipped m2) by (intro X; apply Z1 in X as (z0 & r0 & X); congruence).
    split; [|exact Nz]. destruct (m_mode m3) eqn:Em3; try (injection E2 as <- <-; apply binv_none; exact E3).
    destruct (begin_body gz m3 t3) as [m4| |] eqn:E4; try discriminate. cbn [bind] in E2. injection E2 as <- <-. exact (begin_body_binv m3 t3 _ E3 Em3 E4). }
  destruct H2 as [H2 Z2]. clear E2. destruct (m_mode m2) eqn:Em; try (injection H as <- <-; auto).
  destruct (empty_text t2); [injection H as <- <-; auto|]. apply feed_body_binv in H as (H3 & Z3 & _); auto.
Qed.
End G.

(** ** ResponseMessage.feed *)
Definition is_response (m : msg) : bool := match h_kind (m_head m) with KResponse _ _ _ _ => true | _ => false end.
Definition status (m : msg) : option Z := match h_kind (m_head m) with KResponse _ _ c _ => Some c | _ => None end.
(** a complete "100 Continue" *)
Definition continue_done (m : msg) : Prop := complete m = true /\ status m = Some 100%Z.
Definition after_continue (m : msg) : msg :=
  match h_kind (m_head m) with
  | KResponse rm _ _ _ => mkmsg (m_buf m) (m_off m) (new_response_hdr rm []) [] Start None (m_interim m ++ [m_head m])
  | _ => m
  end.
Lemma continue_dec m : {continue_done m} + {~ continue_done m}.
Proof.
  unfold continue_done. destruct (complete m); [|right; intros [X _]; discriminate]. destruct (status m) as [c|]; [|right; intros [_ X]; discriminate].
  destruct (Z.eq_dec c 100) as [->|H]; [left; auto|right; intros [_ X]; congruence].
Defined.

Section G2.
Variable gz : bytes -> outcome bytes.
Definition resp (p : msg * bytes) : outcome (msg * bytes) :=
  if continue_dec (fst p) then base_feed gz (after_continue (fst p)) (snd p) else Ret p.
Definition cls (h : hdr) : option bytes := match h_kind h with KResponse rm _ _ _ => Some rm | _ => None end.
Lemma start_cls h line h' : set_start_line h line = Ret h' -> cls h' = cls h.
Proof.
  unfold set_start_line, cls. destruct (h_kind h) as [a b c d|rm a b c] eqn:E; intro H.
  - destruct (split_max 2 SP (rstrip line)) as [|x [|y [|z [|]]]]; try discriminate.
    destruct (bytes_eqb (upper x) (B "CONNECT")).
    + destruct (split_all COLON y) as [|p [|q [|]]]; try discriminate. injection H as <-. reflexivity.
    + destruct (re_match url_rx y); injection H as <-; cbn; [|reflexivity]. destruct (group 1 _); reflexivity.
  - destruct (split_max 2 SP (rstrip line)) as [|x [|y z]]; try discriminate. destruct (py_int 10 y); try discriminate.
    injection H as <-. destruct (bytes_eqb x (B "HTTP/1.0")); reflexivity.
Qed.
Lemma note_header_kind h nv h' : note_header h nv = Ret h' -> h_kind h' = h_kind h.
Proof.
  unfold note_header. cbv zeta. destruct (in_list _ (h_ignore h)); [intro H; injection H as <-; reflexivity|].
  destruct (bytes_eqb _ (B "expect")); [destruct (contains _ _); intro H; injection H as <-; reflexivity|].
  destruct (bytes_eqb _ (B "content-length")).
  { destruct (h_mode h); try (intro H; injection H as <-; reflexivity). destruct (py_int 10 _); [intro H; injection H as <-; reflexivity|discriminate]. }
  destruct (bytes_eqb _ (B "transfer-encoding")); [destruct (contains _ _); intro H; injection H as <-; reflexivity|].
  destruct (bytes_eqb _ (B "content-encoding")); [intro H; injection H as <-; reflexivity|].
  destruct (bytes_eqb _ (B "connection")); [|intro H; injection H as <-; reflexivity].
  destruct (contains (B "keep-alive") _); [intro H; injection H as <-; reflexivity|]. destruct (contains _ _); intro H; injection H as <-; reflexivity.
Qed.
Lemma note_headers_kind l : forall h h', note_headers h l = Ret h' -> h_kind h' = h_kind h.
Proof.
  induction l as [|nv l IH]; intros h h' H; [injection H as <-; reflexivity|]. cbn [note_headers] in H.
  destruct (note_header h nv) as [h1| |] eqn:E; try discriminate. cbn [bind] in H. apply IH in H. apply note_header_kind in E. congruence.
Qed.
Lemma header_kind h line h' : add_header_line h line = Ret h' -> h_kind h' = h_kind h.
Proof.
  unfold add_header_line. destruct (is_folded line).
  - destruct (fold_last _ _); try discriminate. intro H. injection H as <-. auto.
  - destruct (in_list line NEWLINES); [apply note_headers_kind|]. destruct (split_field line); try discriminate. intro H. injection H as <-. auto.
Qed.
Lemma cls_kind h h' : h_kind h' = h_kind h -> cls h' = cls h. Proof. unfold cls. intros ->. reflexivity. Qed.
Lemma feed_headers_kind f : forall m text m' t, feed_headers f m text = Ret (m', t) -> h_kind (m_head m') = h_kind (m_head m).
Proof.
  induction f as [|f IH]; intros m text m' t H; [discriminate|]. cbn [feed_headers] in H. destruct text as [|c x]; [injection H as <- <-; reflexivity|].
  destruct (feed_line m (c :: x)) as [[[l|] t1] m1] eqn:E; apply feed_line_reader in E as (_ & E & _).
  - destruct (add_header_line _ l) as [h| |] eqn:Eh; try discriminate. apply header_kind in Eh. cbn [bind] in H.
    destruct (in_list l NEWLINES); [injection H as <- <-; cbn; congruence|]. apply IH in H. cbn in H. congruence.
  - apply IH in H. congruence.
Qed.
Lemma feed_body_kind m text m' t : feed_body m text = Ret (m', t) -> h_kind (m_head m') = h_kind (m_head m).
Proof.
  assert (Raw : forall m1, raw_body m1 text = Ret (m', t) -> m_head m' = m_head m1).
  { intros m1. unfold raw_body. destruct (m_chunks m1) as [|[o n] [|q l]]; try discriminate. intro X. injection X as <- <-. reflexivity. }
  unfold feed_body. destruct (m_reader m) as [[c s r|r|z r]|] eqn:Er; intro H.
  - destruct (chunk_feed _ m text) as [[[m1 t1]|]| |] eqn:E; try discriminate; cbn [bind] in H.
    + injection H as <- <-. apply chunk_feed_kind in E as (K & _); [exact K|eexists _, _, _; exact Er].
    + apply Raw in H. rewrite H. reflexivity.
  - injection H as H. unfold length_feed in H. destruct (if (0 <? r)%Z then _ else _) as [[r1 t1] m1] eqn:E. injection H as <- <-.
    assert (K : m_head m1 = m_head m) by (destruct (0 <? r)%Z; injection E as <- <- <-; auto). destruct (r1 <=? 0)%Z; cbn; rewrite K; reflexivity.
  - injection H as H. unfold zip_feed in H. destruct (if (0 <? r)%Z then _ else _) as [[r1 t1] m1] eqn:E. injection H as <- <-.
    assert (K : m_head m1 = m_head m) by (destruct (0 <? r)%Z; injection E as <- <- <-; auto). destruct (r1 <=? 0)%Z; cbn; rewrite K; reflexivity.
  - apply Raw in H. rewrite H. reflexivity.
Qed.
Lemma begin_body_head m text m' : begin_body gz m text = Ret m' -> m_head m' = m_head m.
Proof.
  unfold begin_body. destruct (negb (has_body (m_head m))); [intro H; injection H as <-; reflexivity|].
  destruct (body_is_chunked (m_head m)); [intro H; injection H as <-; reflexivity|].
  destruct (body_length (m_head m)) as [n|]; [|intro H; injection H as <-; reflexivity].
  match goal with |- bind ?x _ = _ -> _ => destruct x as [rd| |] end; try discriminate. cbn [bind]. intro H. injection H as <-. destruct (_ =? 0)%Z; reflexivity.
Qed.
Lemma base_feed_cls m text m' t : base_feed gz m text = Ret (m', t) -> cls (m_head m') = cls (m_head m).
Proof.
  intro H. unfold base_feed in H.
  match type of H with bind ?x _ = _ => destruct x as [[m1 t1]| |] eqn:E1 end; try discriminate. cbn [bind] in H.
  assert (H1 : cls (m_head m1) = cls (m_head m)).
  { destruct (m_mode m) eqn:Em; try (injection E1 as <- <-; auto). destruct (empty_text text); [injection E1 as <- <-; auto|].
    unfold feed_start in E1. destruct (feed_line m text) as [[[l|] t3] m3] eqn:E; apply feed_line_reader in E as (_ & E & _).
    - destruct (in_list l NEWLINES); [injection E1 as <- <-; congruence|]. destruct (set_start_line _ l) as [h| |] eqn:Es; try discriminate. injection E1 as <- <-. cbn. apply start_cls in Es. congruence.
    - injection E1 as <- <-. congruence. }
  rewrite <- H1. clear E1 H1.
  match type of H with bind ?x _ = _ => destruct x as [[m2 t2]| |] eqn:E2 end; try discriminate. cbn [bind] in H.
  assert (H2 : cls (m_head m2) = cls (m_head m1)).
  { destruct (m_mode m1) eqn:Em; try (injection E2 as <- <-; auto). destruct (empty_text t1); [injection E2 as <- <-; auto|].
    destruct (feed_headers _ m1 t1) as [[m3 t3]| |] eqn:E3; try discriminate. cbn [bind] in E2. apply feed_headers_kind, cls_kind in E3. rewrite <- E3.
    destruct (m_mode m3) eqn:Em3; try (injection E2 as <- <-; reflexivity).
    destruct (begin_body gz m3 t3) as [m4| |] eqn:E4; try discriminate. cbn [bind] in E2. injection E2 as <- <-. apply begin_body_head in E4. congruence. }
  rewrite <- H2. clear E2 H2. destruct (m_mode m2) eqn:Em; try (injection H as <- <-; auto).
  destruct (empty_text t2); [injection H as <- <-; auto|]. apply feed_body_kind, cls_kind in H. exact H.
Qed.
Lemma feed_resp m text : feed gz m text = bind (base_feed gz m text) resp.
Proof.
  unfold feed. destruct (base_feed gz m text) as [[m1 t1]|e|] eqn:E; [|destruct (h_kind (m_head m)); reflexivity..].
  apply base_feed_cls in E. unfold cls in E. unfold resp, after_continue. cbn [bind fst snd].
  destruct (h_kind (m_head m)) as [a b c d|rm a b c], (h_kind (m_head m1)) as [a' b' c' d'|rm' a' b' c'] eqn:Ek; try discriminate.
  - destruct (continue_dec m1) as [[_ X]|_]; [|reflexivity]. unfold status in X. rewrite Ek in X. discriminate.
  - destruct (continue_dec m1) as [[X1 X2]|X]; unfold continue_done, status in *; rewrite Ek in *.
    + injection X2 as ->. rewrite X1. reflexivity.
    + destruct (complete m1); [|reflexivity]. cbn [andb]. destruct (Z.eqb_spec b' 100) as [->|Hn]; [|reflexivity]. exfalso. apply X. auto.
Qed.
(** ** piece by piece *)
Fixpoint feed_all (m : msg) (pieces : list bytes) : outcome (msg * bytes) :=
  match pieces with
  | [] => Ret (m, [])
  | p :: ps => bind (feed gz m p) (fun q => match snd q with [] => feed_all (fst q) ps | _ => Ret (fst q, snd q ++ concat ps) end)
  end.
Definition settled (x : outcome (msg * bytes)) : Prop :=
  regular x /\ match x with Ret (m, _) => ~ continue_done m | _ => True end.
Hypothesis Hgz : gz_ok gz.
Lemma continue_reader m : binv m -> continue_done m -> m_reader m = None.
Proof.
  intros [_ B] [_ C]. destruct (m_reader m) as [r|]; [|reflexivity]. exfalso. assert (H : has_body (m_head m) = true) by (apply B; discriminate).
  unfold status in C. unfold has_body in H. destruct (h_kind (m_head m)); [discriminate|]. injection C as ->. rewrite Bool.andb_false_r in H. discriminate.
Qed.
Lemma hinv_after m : bwf m -> continue_done m -> hinv (after_continue m) /\ m_reader (after_continue m) = None.
Proof.
  intros Hb [_ C]. unfold after_continue, status in *. destruct (h_kind (m_head m)); [discriminate|]. split; [|reflexivity].
  split; [apply (bwf_same m); [reflexivity|reflexivity|exact Hb]|]. split; [reflexivity|]. split; [discriminate|]. intro X. contradiction.
Qed.
Lemma settled_first m text : hinv m -> settled (feed gz m text) -> regular (base_feed gz m text).
Proof.
  intros Hi. rewrite feed_resp. destruct (base_feed gz m text) as [[m1 t1]|e|] eqn:E; cbn [bind]; [|intros [H _]; exact H..].
  unfold resp. cbn [fst snd]. destruct (continue_dec m1) as [C|C]; [|intros [H _]; exact H]. intros _.
  apply base_feed_binv in E as [E _]; [|apply hinv_binv, Hi]. pose proof (continue_reader _ E C) as Hr. destruct C as [C1 C2].
  unfold complete in C1. destruct (m_mode m1) eqn:Em; try discriminate.
  split; [intro X; congruence|]. split; [intros (z & r & X); congruence|]. intros (X & _). congruence.
Qed.
Theorem feed_split m a b : hinv m -> settled (feed gz m (a ++ b)) ->
  feed gz m (a ++ b) = bind (feed gz m a) (fun q => match snd q with [] => feed gz (fst q) b | _ => Ret (fst q, snd q ++ b) end) /\
  (forall m', feed gz m a = Ret (m', []) -> hinv m' /\ ~ continue_done m').
Proof.
  intros Hi Hs. pose proof (settled_first _ _ Hi Hs) as Hreg. destruct (split_law gz Hgz a m b Hi Hreg) as [E1 E2].
  rewrite !feed_resp in *. rewrite E1 in Hs. rewrite E1. clear E1. destruct (base_feed gz m a) as [[m1 t1]|e|] eqn:E; cbn [bind] in *; [|split; [reflexivity|discriminate]..].
  destruct (E2 _ _ eq_refl) as [Hb H1]. cbn [fst snd] in *.
  assert (Hr : resp (m1, t1) = if continue_dec m1 then base_feed gz (after_continue m1) t1 else Ret (m1, t1)) by reflexivity. rewrite Hr. clear Hr.
  destruct (continue_dec m1) as [C|C].
  - destruct (hinv_after _ Hb C) as [Ha _].
    assert (X : bind (match t1 with [] => base_feed gz m1 b | _ => Ret (m1, t1 ++ b) end) resp = base_feed gz (after_continue m1) (t1 ++ b)).
    { assert (Q : match t1 with [] => base_feed gz m1 b | _ => Ret (m1, t1 ++ b) end = Ret (m1, t1 ++ b)).
      { destruct t1; [|reflexivity]. apply BF_done. left. destruct C as [C _]. unfold complete in C. destruct (m_mode m1); try discriminate. reflexivity. }
      rewrite Q. cbn [bind]. unfold resp. cbn [fst snd]. destruct (continue_dec m1); [reflexivity|contradiction]. }
    rewrite X in *. destruct Hs as [Hs1 Hs2]. destruct (split_law gz Hgz t1 _ b Ha Hs1) as [E3 E4]. rewrite E3 in *.
    destruct (base_feed gz (after_continue m1) t1) as [[m2 t2]|e|] eqn:E5; cbn [bind fst snd] in *; [|split; [reflexivity|discriminate]..].
    destruct (E4 _ _ eq_refl) as [_ H2]. split.
    2:{ intros m' E'; injection E' as <- ->; split; [apply H2; reflexivity|]. intro C2. rewrite BF_done in Hs2; [contradiction|].
        left. destruct C2 as [C2 _]. unfold complete in C2. destruct (m_mode m2); try discriminate. reflexivity. }
    destruct t2 as [|c t2]; [|reflexivity]. rewrite feed_resp. destruct (base_feed gz m2 b) as [[m3 t3]|e|]; cbn [bind]; try reflexivity.
    unfold resp. cbn [fst snd]. destruct (continue_dec m3); [contradiction|reflexivity].
  - cbn [bind fst snd]. split; [|intros m' E'; injection E' as <- ->; split; [apply H1; reflexivity|exact C]].
    destruct t1 as [|c t1]; [rewrite feed_resp; reflexivity|]. cbn [bind]. unfold resp. cbn [fst snd]. destruct (continue_dec m1); [contradiction|reflexivity].
Qed.
Theorem feed_pieces pieces : forall m, hinv m -> ~ continue_done m -> settled (feed gz m (concat pieces)) -> feed_all m pieces = feed gz m (concat pieces).
Proof.
  induction pieces as [|p ps IH]; intros m Hi Hc Hs.
  - cbn [concat feed_all] in *. rewrite feed_resp in *. rewrite BF_nil in *. cbn [bind] in *. unfold resp in *. cbn [fst snd] in *.
    destruct (continue_dec m) as [C|C]; [contradiction|reflexivity].
  - cbn [concat feed_all] in *. destruct (feed_split m p (concat ps) Hi Hs) as [E1 E2]. rewrite E1 in *.
    destruct (feed gz m p) as [[m1 t1]|e|]; cbn [bind fst snd] in *; try reflexivity. destruct t1 as [|c t1]; [|reflexivity].
    destruct (E2 _ eq_refl) as [H1 H2]. apply IH; assumption.
Qed.
End G2.
