(** The method of the request matters to a response parser at one point only. *)
From Verif Require Export Conn HttpRaiseRun.
From Coq Require Import String List Lia ZArith.
Open Scope list_scope.

Section S.
Variable a : bytes.
Notation sg := (msg_method a).
Definition sgx {A : Type} (p : outcome A * msg) : outcome A * msg := (fst p, sg (snd p)).
Lemma wm_fields h : h_headers (with_method a h) = h_headers h /\ h_trailers (with_method a h) = h_trailers h /\ h_mode (with_method a h) = h_mode h /\
  h_length (with_method a h) = h_length h /\ h_encoding (with_method a h) = h_encoding h /\ h_ignore (with_method a h) = h_ignore h.
Proof. unfold with_method. destruct (h_kind h); repeat split. Qed.
Lemma wm_headers h l : set_headers (with_method a h) l = with_method a (set_headers h l).
Proof. unfold with_method. cbn [set_headers h_kind]. destruct (h_kind h); reflexivity. Qed.
Lemma wm_trailers h l : set_trailers (with_method a h) l = with_method a (set_trailers h l).
Proof. unfold with_method. cbn [set_trailers h_kind]. destruct (h_kind h); reflexivity. Qed.
Lemma wm_note h nv : note_header (with_method a h) nv = omap (with_method a) (note_header h nv).
Proof.
  destruct (wm_fields h) as (_ & _ & W3 & _ & _ & W6). unfold note_header. rewrite W3, W6.
  repeat match goal with |- context [if ?b then _ else _] => destruct b end; try reflexivity; try (unfold with_method; destruct (h_kind h) eqn:K; cbn; rewrite ?K; reflexivity).
  destruct (h_mode h); try reflexivity. destruct (py_int 10 _); [|reflexivity]. unfold with_method. cbn. destruct (h_kind h); reflexivity.
Qed.
Lemma wm_notes l : forall h, note_headers (with_method a h) l = omap (with_method a) (note_headers h l).
Proof. induction l as [|nv l IH]; intro h; [reflexivity|]. cbn [note_headers]. rewrite wm_note. destruct (note_header h nv); try reflexivity. apply IH. Qed.
Lemma wm_until l : forall h, note_until (with_method a h) l = with_method a (note_until h l).
Proof. induction l as [|nv l IH]; intro h; [reflexivity|]. cbn [note_until]. rewrite wm_note. destruct (note_header h nv); try reflexivity. apply IH. Qed.
Lemma wm_line h line : add_header_line (with_method a h) line = omap (with_method a) (add_header_line h line).
Proof.
  destruct (wm_fields h) as (W1 & _). unfold add_header_line. rewrite W1. destruct (is_folded line).
  - destruct (fold_last _ _); try reflexivity. cbn [bind omap]. rewrite wm_headers. reflexivity.
  - destruct (in_list line NEWLINES); [apply wm_notes|]. destruct (split_field line); try reflexivity. cbn [bind omap]. rewrite wm_headers. reflexivity.
Qed.
Lemma wm_trailer h line : add_trailer_line (with_method a h) line = omap (with_method a) (add_trailer_line h line).
Proof.
  destruct (wm_fields h) as (_ & W2 & _). unfold add_trailer_line. rewrite W2. destruct (is_folded line).
  - destruct (fold_last _ _); try reflexivity. cbn [bind omap]. rewrite wm_trailers. reflexivity.
  - destruct (in_list line NEWLINES); [reflexivity|]. destruct (split_field line); try reflexivity. cbn [bind omap]. rewrite wm_trailers. reflexivity.
Qed.
Lemma wm_x_line h line : x_header_line (with_method a h) line = (let '(o, h') := x_header_line h line in (o, with_method a h')).
Proof.
  unfold x_header_line. rewrite wm_line. destruct (add_header_line h line) as [h'|e|]; try reflexivity. cbn [omap]. destruct (wm_fields h) as (W1 & _). rewrite W1.
  destruct (is_folded line); [reflexivity|]. destruct (in_list line NEWLINES); [rewrite wm_until|]; reflexivity.
Qed.
Lemma wm_x_trailer h line : x_trailer_line (with_method a h) line = (let '(o, h') := x_trailer_line h line in (o, with_method a h')).
Proof. unfold x_trailer_line. rewrite wm_trailer. destruct (add_trailer_line h line); reflexivity. Qed.
Lemma wm_start h line : set_start_line (with_method a h) line = omap (with_method a) (set_start_line h line).
Proof.
  unfold set_start_line, with_method. destruct (h_kind h) as [x y z w|rm v c p] eqn:K.
  - rewrite K. assert (F : forall k b, (exists m t v, k = KRequest m t v b) -> Ret (set_kind h k) = omap (fun h0 : hdr => match h_kind h0 with KRequest _ _ _ _ => h0 | KResponse _ v c p => set_kind h0 (KResponse a v c p) end) (Ret (set_kind h k))) by (intros k b (m & t & v & ->); reflexivity).
    destruct (split_max 2 SP (rstrip line)) as [|method [|target [|version [|? ?]]]]; try reflexivity.
    destruct (bytes_eqb (upper method) (B "CONNECT")).
    + destruct (split_all COLON target) as [|? [|? [|? ?]]]; reflexivity.
    + destruct (re_match url_rx target) as [g|]; [|reflexivity]. destruct (group 1 g); reflexivity.
  - cbn [set_kind h_kind]. destruct (split_max 2 SP (rstrip line)) as [|version [|code rest]]; try reflexivity. destruct (py_int 10 code); [|reflexivity]. destruct (bytes_eqb version (B "HTTP/1.0")); reflexivity.
Qed.
Lemma sg_line m text : feed_line (sg m) text = (let '(l, t, m') := feed_line m text in (l, t, sg m')).
Proof. unfold feed_line. cbn [msg_method m_buf m_off]. destruct (find_from LF (m_off m) (m_buf m ++ text)); reflexivity. Qed.
Lemma sg_length m text r : feed_length (sg m) text r = (let '(r', t, m') := feed_length m text r in (r', t, sg m')).
Proof. reflexivity. Qed.
Lemma sg_start m text : x_start (sg m) text = sgx (x_start m text).
Proof.
  unfold x_start. rewrite sg_line. destruct (feed_line m text) as [[[l|] t] m']; [|reflexivity]. destruct (in_list l NEWLINES); [reflexivity|].
  change (m_head (sg m')) with (with_method a (m_head m')). rewrite wm_start. destruct (set_start_line (m_head m') l); reflexivity.
Qed.
Lemma sg_headers f : forall m text, x_headers f (sg m) text = sgx (x_headers f m text).
Proof.
  induction f as [|f IH]; intros m text; [reflexivity|]. cbn [x_headers]. destruct text as [|c t]; [reflexivity|].
  rewrite sg_line. destruct (feed_line m (c :: t)) as [[[l|] t'] m']; [|apply IH].
  change (m_head (sg m')) with (with_method a (m_head m')). rewrite wm_x_line. destruct (x_header_line (m_head m') l) as [[u|e|] h]; try reflexivity.
  destruct (in_list l NEWLINES); [reflexivity|]. exact (IH (set_head m' h) t').
Qed.
Lemma sg_chunk_start m s r text : x_chunk_start (sg m) s r text = sgx (x_chunk_start m s r text).
Proof.
  unfold x_chunk_start. rewrite sg_line. destruct (feed_line m text) as [[[l|] t] m']; [|reflexivity].
  destruct (py_int 16 _) as [n|]; [reflexivity|]. destruct s; reflexivity.
Qed.
Lemma sg_chunk_chunk m s r text : chunk_chunk (sg m) s r text = (let '(m', t) := chunk_chunk m s r text in (sg m', t)).
Proof.
  unfold chunk_chunk. rewrite sg_length. destruct (0 <? r)%Z.
  - destruct (feed_length m text r) as [[r' t] m']. destruct (r' =? 0)%Z; [|reflexivity].
    rewrite sg_line. destruct (feed_line m' t) as [[[l|] t'] m'']; reflexivity.
  - destruct (r =? 0)%Z; [|reflexivity]. rewrite sg_line. destruct (feed_line m text) as [[[l|] t'] m'']; reflexivity.
Qed.
Lemma sg_trailer m s r text : x_trailer (sg m) s r text = sgx (x_trailer m s r text).
Proof.
  unfold x_trailer. rewrite sg_line. destruct (feed_line m text) as [[[l|] t] m']; [|reflexivity].
  change (m_head (sg m')) with (with_method a (m_head m')). rewrite wm_x_trailer. destruct (x_trailer_line (m_head m') l) as [[u|e|] h]; reflexivity.
Qed.
Lemma sg_pass m text : x_pass (sg m) text = sgx (x_pass m text).
Proof.
  unfold x_pass. change (m_reader (sg m)) with (m_reader m).
  assert (T : forall m2 t2, match m_reader (sg m2) with
      | Some (RChunk CTrailer st r) => if empty_text t2 then (Ret (Some t2), sg m2) else match x_trailer (sg m2) st r t2 with (Ret t, m3) => (Ret (Some t), m3) | (Raise e, m3) => (Raise e, m3) | (Diverge, m3) => (Diverge, m3) end
      | _ => (Ret (Some t2), sg m2) end = sgx (match m_reader m2 with
      | Some (RChunk CTrailer st r) => if empty_text t2 then (Ret (Some t2), m2) else match x_trailer m2 st r t2 with (Ret t, m3) => (Ret (Some t), m3) | (Raise e, m3) => (Raise e, m3) | (Diverge, m3) => (Diverge, m3) end
      | _ => (Ret (Some t2), m2) end)).
  { intros m2 t2. change (m_reader (sg m2)) with (m_reader m2). destruct (m_reader m2) as [[[] s r|r|z r]|]; try reflexivity.
    destruct (empty_text t2); [reflexivity|]. rewrite sg_trailer. destruct (x_trailer m2 s r t2) as [[t|e|] m3]; reflexivity. }
  assert (E : forall p : outcome (option bytes) * msg, match sgx p with
    | (Ret (Some text1), m1) =>
      let '(m2, text2) := match m_reader m1 with Some (RChunk CChunk st r) => if empty_text text1 then (m1, text1) else chunk_chunk m1 st r text1 | _ => (m1, text1) end in
      match m_reader m2 with
      | Some (RChunk CTrailer st r) => if empty_text text2 then (Ret (Some text2), m2) else match x_trailer m2 st r text2 with (Ret t, m3) => (Ret (Some t), m3) | (Raise e, m3) => (Raise e, m3) | (Diverge, m3) => (Diverge, m3) end
      | _ => (Ret (Some text2), m2) end
    | (Ret None, m1) => (Ret None, m1) | (Raise e, m1) => (Raise e, m1) | (Diverge, m1) => (Diverge, m1) end = sgx (match p with
    | (Ret (Some text1), m1) =>
      let '(m2, text2) := match m_reader m1 with Some (RChunk CChunk st r) => if empty_text text1 then (m1, text1) else chunk_chunk m1 st r text1 | _ => (m1, text1) end in
      match m_reader m2 with
      | Some (RChunk CTrailer st r) => if empty_text text2 then (Ret (Some text2), m2) else match x_trailer m2 st r text2 with (Ret t, m3) => (Ret (Some t), m3) | (Raise e, m3) => (Raise e, m3) | (Diverge, m3) => (Diverge, m3) end
      | _ => (Ret (Some text2), m2) end
    | (Ret None, m1) => (Ret None, m1) | (Raise e, m1) => (Raise e, m1) | (Diverge, m1) => (Diverge, m1) end)).
  { intros [[[t1|]|e|] m1]; try reflexivity. unfold sgx at 1. cbn [fst snd]. change (m_reader (sg m1)) with (m_reader m1).
    destruct (m_reader m1) as [[[] s r|r|z r]|]; try apply T. destruct (empty_text t1); [apply T|]. rewrite sg_chunk_chunk. destruct (chunk_chunk m1 s r t1) as [m2 t2]. apply T. }
  rewrite <- E. destruct (m_reader m) as [[[] s r|r|z r]|]; try reflexivity. rewrite sg_chunk_start. reflexivity.
Qed.
Lemma sg_chunks f : forall m text, x_chunks f (sg m) text = sgx (x_chunks f m text).
Proof.
  induction f as [|f IH]; intros m text; [reflexivity|]. cbn [x_chunks]. destruct text as [|c t]; [reflexivity|].
  rewrite sg_pass. destruct (x_pass m (c :: t)) as [[[t'|]|e|] m']; try reflexivity. unfold sgx at 1. cbn [fst snd].
  change (m_reader (sg m')) with (m_reader m'). destruct (m_reader m') as [[[] s r|r|z r]|]; try reflexivity; apply IH.
Qed.
Lemma sg_raw m text : x_raw (sg m) text = sgx (x_raw m text).
Proof. unfold x_raw. cbn [msg_method m_chunks]. destruct (m_chunks m) as [|[o n] [|e t]]; reflexivity. Qed.
Lemma sg_body m text : x_body (sg m) text = sgx (x_body m text).
Proof.
  unfold x_body. change (m_reader (sg m)) with (m_reader m). destruct (m_reader m) as [[c s r|r|z r]|].
  - rewrite sg_chunks. destruct (x_chunks _ m text) as [[[t'|]|e|] m']; try reflexivity; exact (sg_raw _ _).
  - unfold length_feed. rewrite sg_length. destruct (0 <? r)%Z.
    + destruct (feed_length m text r) as [[r' t] m']. destruct (r' <=? 0)%Z; reflexivity.
    + destruct (r <=? 0)%Z; reflexivity.
  - unfold zip_feed. rewrite sg_length. destruct (0 <? r)%Z.
    + destruct (feed_length m _ r) as [[r' t] m']. destruct (r' <=? 0)%Z; reflexivity.
    + destruct (r <=? 0)%Z; reflexivity.
  - apply sg_raw.
Qed.
Variable gz : bytes -> outcome bytes.
(** whether there is a body is the one question the method decides *)
Definition indifferent (m : msg) : Prop := has_body (with_method a (m_head m)) = has_body (m_head m).
Lemma sg_begin m text : indifferent m -> x_begin gz (sg m) text = sgx (x_begin gz m text).
Proof.
  intro H. unfold x_begin, begin_body. cbn [msg_method m_head]. rewrite H. destruct (has_body (m_head m)); [|reflexivity]. cbn [negb].
  destruct (wm_fields (m_head m)) as (_ & _ & W3 & W4 & W5 & _). unfold body_is_chunked, body_length. rewrite W3, W4, W5.
  destruct (match h_mode (m_head m) with MChunked => true | _ => false end); [reflexivity|].
  destruct (match h_mode (m_head m) with MLength => h_length (m_head m) | _ => None end) as [n|]; [|reflexivity].
  set (g := match h_encoding (m_head m) with Some e => endswith (B "gzip") e | None => false end).
  destruct (if g then zip_reader gz n text else Ret (RLength n)) as [r| |]; try reflexivity. cbn [bind]. destruct (reader_remaining r =? 0)%Z; reflexivity.
Qed.

(** once the headers are complete they stay complete, and the start line stays *)
Definition keeps (m m' : msg) : Prop := h_kind (m_head m') = h_kind (m_head m) /\ (m_mode m' = m_mode m \/ m_mode m' = End).
Lemma keeps_refl m : keeps m m. Proof. split; auto. Qed.
Lemma keeps_trans m1 m2 m3 : keeps m1 m2 -> keeps m2 m3 -> keeps m1 m3.
Proof. intros [A1 A2] [B1 B2]. split; [congruence|]. destruct B2 as [B2|B2]; [|auto]. destruct A2 as [A2|A2]; rewrite A2 in B2; auto. Qed.
Lemma line_keeps m text l t m' : feed_line m text = (l, t, m') -> keeps m m'.
Proof. unfold feed_line. destruct (find_from LF (m_off m) (m_buf m ++ text)); intro H; injection H as <- <- <-; split; auto. Qed.
Lemma x_chunk_start_keeps m s r text : keeps m (snd (x_chunk_start m s r text)).
Proof.
  unfold x_chunk_start. destruct (feed_line m text) as [[[l|] t] m'] eqn:E; apply line_keeps in E; [|exact E].
  destruct (py_int 16 _) as [n|]; [exact E|]. destruct s; exact E.
Qed.
Lemma chunk_chunk_keeps m s r text : keeps m (fst (chunk_chunk m s r text)).
Proof.
  unfold chunk_chunk. assert (K : forall r' t m1, (if (0 <? r)%Z then feed_length m text r else (r, text, m)) = (r', t, m1) -> keeps m m1).
  { intros r' t m1. destruct (0 <? r)%Z; intro H; [unfold feed_length in H|]; injection H as <- <- <-; split; auto. }
  destruct (if (0 <? r)%Z then feed_length m text r else (r, text, m)) as [[r' t] m1]. specialize (K _ _ _ eq_refl). destruct (r' =? 0)%Z; [|exact K].
  destruct (feed_line m1 t) as [[[l|] t2] m2] eqn:E; apply line_keeps in E; exact (keeps_trans _ _ _ K E).
Qed.
Lemma x_trailer_keeps m s r text : keeps m (snd (x_trailer m s r text)).
Proof.
  unfold x_trailer. destruct (feed_line m text) as [[[l|] t] m'] eqn:E; apply line_keeps in E; [|exact E]. unfold x_trailer_line.
  destruct (add_trailer_line (m_head m') l) as [h|e|] eqn:T; try exact E. apply trailer_keeps in T as [T _]. destruct E as [E1 E2]. split; [cbn; congruence|exact E2].
Qed.
Lemma x_pass_keeps m text : keeps m (snd (x_pass m text)).
Proof.
  unfold x_pass. assert (K : keeps m (snd (match m_reader m with Some (RChunk CStart st r) => x_chunk_start m st r text | _ => (Ret (Some text), m) end))).
  { destruct (m_reader m) as [[[] s r|r|z r]|]; try apply keeps_refl. apply x_chunk_start_keeps. }
  destruct (match m_reader m with Some (RChunk CStart st r) => x_chunk_start m st r text | _ => (Ret (Some text), m) end) as [[[t1|]|e|] m1]; try exact K. cbn [snd] in K.
  assert (K2 : keeps m1 (fst (match m_reader m1 with Some (RChunk CChunk st r) => if empty_text t1 then (m1, t1) else chunk_chunk m1 st r t1 | _ => (m1, t1) end))).
  { destruct (m_reader m1) as [[[] s r|r|z r]|]; try apply keeps_refl. destruct (empty_text t1); [apply keeps_refl|apply chunk_chunk_keeps]. }
  destruct (match m_reader m1 with Some (RChunk CChunk st r) => if empty_text t1 then (m1, t1) else chunk_chunk m1 st r t1 | _ => (m1, t1) end) as [m2 t2]. cbn [fst] in K2.
  pose proof (keeps_trans _ _ _ K K2) as K3. destruct (m_reader m2) as [[[] s r|r|z r]|]; try exact K3. destruct (empty_text t2); [exact K3|].
  pose proof (x_trailer_keeps m2 s r t2) as K4. destruct (x_trailer m2 s r t2) as [[t|e|] m3]; exact (keeps_trans _ _ _ K3 K4).
Qed.
Lemma x_chunks_keeps f : forall m text, keeps m (snd (x_chunks f m text)).
Proof.
  induction f as [|f IH]; intros m text; [apply keeps_refl|]. cbn [x_chunks]. destruct text as [|c t]; [apply keeps_refl|].
  pose proof (x_pass_keeps m (c :: t)) as K. destruct (x_pass m (c :: t)) as [[[t'|]|e|] m']; try exact K. cbn [snd] in K.
  destruct (m_reader m') as [[[] s r|r|z r]|]; try (eapply keeps_trans; [exact K|apply IH]). destruct K as [K1 _]. split; [exact K1|right; reflexivity].
Qed.
Lemma x_raw_keeps m text : keeps m (snd (x_raw m text)).
Proof. unfold x_raw. destruct (m_chunks m) as [|[o n] [|e t]]; split; auto. Qed.
Lemma x_body_keeps m text : keeps m (snd (x_body m text)).
Proof.
  unfold x_body. destruct (m_reader m) as [[c s r|r|z r]|]; [| | |apply x_raw_keeps].
  - pose proof (x_chunks_keeps (S (List.length text)) m text) as K. destruct (x_chunks _ m text) as [[[t'|]|e|] m']; try exact K.
  - unfold length_feed. destruct (0 <? r)%Z; [unfold feed_length|]; destruct (_ <=? 0)%Z; split; auto.
  - unfold zip_feed. destruct (0 <? r)%Z; [unfold feed_length|]; destruct (_ <=? 0)%Z; split; auto.
Qed.
Lemma x_begin_keeps m text : keeps m (snd (x_begin gz m text)).
Proof.
  unfold x_begin. destruct (begin_body gz m text) as [m'|e|] eqn:E; try apply keeps_refl. cbn [snd]. unfold begin_body in E.
  destruct (negb (has_body (m_head m))); [injection E as <-; split; auto|]. destruct (body_is_chunked (m_head m)); [injection E as <-; split; auto|].
  destruct (body_length (m_head m)) as [n|]; [|injection E as <-; split; auto].
  destruct (if match h_encoding (m_head m) with Some e => endswith (B "gzip") e | None => false end then zip_reader gz n text else Ret (RLength n)) as [r| |]; try discriminate.
  cbn [bind] in E. destruct (reader_remaining r =? 0)%Z; injection E as <-; split; auto.
Qed.
(** a response parser, for a request with the method [b] *)
Variable b : bytes.
Definition is_response (m : msg) : Prop := exists v c p, h_kind (m_head m) = KResponse b v c p.
Lemma indifferent_keeps m m' : keeps m m' -> indifferent m' -> m_mode m = Body -> is_response m -> indifferent m.
Proof. intros [K _] H _ (v & c & p & E). unfold indifferent, has_body, with_method in *. rewrite K, E in H. cbn [h_kind set_kind] in H. rewrite E. cbn [h_kind set_kind]. exact H. Qed.
Lemma x_headers_response f : forall m text, is_response m -> is_response (snd (x_headers f m text)).
Proof.
  induction f as [|f IH]; intros m text H; [exact H|]. cbn [x_headers]. destruct text as [|c t]; [exact H|].
  destruct (feed_line m (c :: t)) as [[[l|] t'] m'] eqn:E; apply line_keeps in E as [E _]; [|apply IH; unfold is_response; rewrite E; exact H].
  unfold x_header_line. assert (K : forall h, add_header_line (m_head m') l = Ret h -> h_kind h = h_kind (m_head m')).
  { intros h. unfold add_header_line. destruct (is_folded l); [destruct (fold_last _ _); try discriminate; intro X; injection X as <-; reflexivity|].
    destruct (in_list l NEWLINES); [intro X; apply note_same in X; apply X|]. destruct (split_field l); try discriminate. intro X. injection X as <-. reflexivity. }
  destruct (add_header_line (m_head m') l) as [h|e|] eqn:A.
  - specialize (K _ eq_refl). destruct (in_list l NEWLINES); [unfold is_response; cbn; rewrite K, E; exact H|]. apply IH. unfold is_response. cbn. rewrite K, E. exact H.
  - unfold is_response. cbn [snd m_head set_head]. destruct (is_folded l); [rewrite E; exact H|]. destruct (in_list l NEWLINES); [|rewrite E; exact H].
    destruct (note_until_same (h_headers (m_head m')) (m_head m')) as (N & _). rewrite N, E. exact H.
  - unfold is_response. cbn. rewrite E. exact H.
Qed.
Lemma x_start_response m text : is_response m -> is_response (snd (x_start m text)).
Proof.
  intro H. unfold x_start. destruct (feed_line m text) as [[[l|] t'] m'] eqn:E; apply line_keeps in E as [E _]; [|unfold is_response; cbn; rewrite E; exact H].
  destruct (in_list l NEWLINES); [unfold is_response; cbn; rewrite E; exact H|]. destruct H as (v & c & p & H). rewrite H in E. unfold set_start_line. rewrite E.
  destruct (split_max 2 SP (rstrip l)) as [|version [|code rest]]; try (exists v, c, p; exact E). destruct (py_int 10 code); [|exists v, c, p; exact E].
  destruct (bytes_eqb version (B "HTTP/1.0")); do 3 eexists; reflexivity.
Qed.
Lemma keeps_response m m' : keeps m m' -> is_response m -> is_response m'. Proof. intros [K _] H. unfold is_response. rewrite K. exact H. Qed.
Theorem base_response m text : is_response m -> is_response (snd (x_base gz m text)).
Proof.
  intro Hr. unfold x_base.
  assert (R1 : is_response (snd (match m_mode m with Start => if empty_text text then (Ret text, m) else x_start m text | _ => (Ret text, m) end))).
  { destruct (m_mode m); try exact Hr. destruct (empty_text text); [exact Hr|apply x_start_response, Hr]. }
  destruct (match m_mode m with Start => if empty_text text then (Ret text, m) else x_start m text | _ => (Ret text, m) end) as [[t1|e|] m1]; try exact R1. cbn [snd] in R1.
  assert (C : forall m2 t2, is_response m2 -> is_response (snd (match m_mode m2 with Body => if empty_text t2 then (Ret t2, m2) else x_body m2 t2 | _ => (Ret t2, m2) end))).
  { intros m2 t2 H2. destruct (m_mode m2); try exact H2. destruct (empty_text t2); [exact H2|]. eapply keeps_response; [apply x_body_keeps|exact H2]. }
  destruct (m_mode m1) eqn:M1; try exact (C m1 t1 R1). destruct (empty_text t1); [exact (C m1 t1 R1)|].
  pose proof (x_headers_response (S (List.length t1)) m1 t1 R1) as R2. destruct (x_headers (S (List.length t1)) m1 t1) as [[t'|e|] m']; try exact R2.
  cbn [snd] in R2. destruct (m_mode m') eqn:M2; try exact (C m' t' R2).
  pose proof (keeps_response _ _ (x_begin_keeps m' t') R2) as R3. destruct (x_begin gz m' t') as [[u|e|] m2]; try exact R3. exact (C m2 t' R3).
Qed.
Theorem feed_response m text : is_response m -> is_response (snd (x_feed gz m text)).
Proof.
  intro Hr. unfold x_feed. pose proof Hr as (v & c & p & E). rewrite E. pose proof (base_response m text Hr) as R. destruct (x_base gz m text) as [[t|e|] m1]; try exact R. cbn [snd] in R.
  pose proof R as (v1 & c1 & p1 & K1). rewrite K1. destruct (complete m1 && (c1 =? 100)%Z); [|exact R]. apply base_response. do 3 eexists. reflexivity.
Qed.
Theorem sg_base m text : is_response m -> (headers_complete (snd (x_base gz m text)) = true -> indifferent (snd (x_base gz m text))) ->
  x_base gz (sg m) text = sgx (x_base gz m text) /\ is_response (snd (x_base gz m text)).
Proof.
  intros Hr Hi. unfold x_base in *. change (m_mode (sg m)) with (m_mode m).
  assert (S1 : match m_mode m with Start => if empty_text text then (Ret text, sg m) else x_start (sg m) text | _ => (Ret text, sg m) end =
    sgx (match m_mode m with Start => if empty_text text then (Ret text, m) else x_start m text | _ => (Ret text, m) end)).
  { destruct (m_mode m); try reflexivity. destruct (empty_text text); [reflexivity|apply sg_start]. }
  assert (R1 : is_response (snd (match m_mode m with Start => if empty_text text then (Ret text, m) else x_start m text | _ => (Ret text, m) end))).
  { destruct (m_mode m); try exact Hr. destruct (empty_text text); [exact Hr|apply x_start_response, Hr]. }
  rewrite S1. destruct (match m_mode m with Start => if empty_text text then (Ret text, m) else x_start m text | _ => (Ret text, m) end) as [[t1|e|] m1]; try (split; [reflexivity|exact R1]).
  cbn [snd] in R1. unfold sgx at 1. cbn [fst snd]. change (m_mode (sg m1)) with (m_mode m1).
  assert (C : forall m2 t2, is_response m2 ->
    match m_mode (sg m2) with Body => if empty_text t2 then (Ret t2, sg m2) else x_body (sg m2) t2 | _ => (Ret t2, sg m2) end =
    sgx (match m_mode m2 with Body => if empty_text t2 then (Ret t2, m2) else x_body m2 t2 | _ => (Ret t2, m2) end) /\
    is_response (snd (match m_mode m2 with Body => if empty_text t2 then (Ret t2, m2) else x_body m2 t2 | _ => (Ret t2, m2) end))).
  { intros m2 t2 H2. change (m_mode (sg m2)) with (m_mode m2). destruct (m_mode m2); try (split; [reflexivity|exact H2]). destruct (empty_text t2); [split; [reflexivity|exact H2]|].
    split; [apply sg_body|]. eapply keeps_response; [apply x_body_keeps|exact H2]. }
  destruct (m_mode m1) eqn:M1; try exact (C m1 t1 R1). destruct (empty_text t1); [exact (C m1 t1 R1)|].
  rewrite sg_headers. pose proof (x_headers_response (S (List.length t1)) m1 t1 R1) as R2. destruct (x_headers (S (List.length t1)) m1 t1) as [[t'|e|] m']; try (split; [reflexivity|exact R2]).
  cbn [snd] in R2. unfold sgx at 1. cbn [fst snd]. change (m_mode (sg m')) with (m_mode m'). destruct (m_mode m') eqn:M2; try exact (C m' t' R2).
  pose proof (x_begin_keeps m' t') as KB. assert (I : indifferent m').
  { destruct (x_begin gz m' t') as [[u|e|] m2]; cbn [snd] in KB, Hi.
    - assert (K2 : keeps m' (snd (match m_mode m2 with Body => if empty_text t' then (Ret t', m2) else x_body m2 t' | _ => (Ret t', m2) end))).
      { destruct (m_mode m2); try exact KB. destruct (empty_text t'); [exact KB|]. eapply keeps_trans; [exact KB|apply x_body_keeps]. }
      eapply indifferent_keeps; [exact K2|apply Hi|exact M2|exact R2]. destruct K2 as [_ [K2|K2]]; unfold headers_complete; rewrite K2, ?M2; reflexivity.
    - eapply indifferent_keeps; [exact KB|apply Hi|exact M2|exact R2]. destruct KB as [_ [K2|K2]]; unfold headers_complete; rewrite K2, ?M2; reflexivity.
    - eapply indifferent_keeps; [exact KB|apply Hi|exact M2|exact R2]. destruct KB as [_ [K2|K2]]; unfold headers_complete; rewrite K2, ?M2; reflexivity. }
  rewrite (sg_begin m' t' I). pose proof (keeps_response _ _ KB R2) as R3. destruct (x_begin gz m' t') as [[u|e|] m2]; try (split; [reflexivity|exact R3]). exact (C m2 t' R3).
Qed.
Theorem sg_feed m text : is_response m -> (headers_complete (snd (x_feed gz m text)) = true -> indifferent (snd (x_feed gz m text))) ->
  x_feed gz (sg m) text = sgx (x_feed gz m text) /\ is_response (snd (x_feed gz m text)).
Proof.
  intros Hr Hi. unfold x_feed in *. pose proof Hr as (v & c & p & E).
  assert (E' : h_kind (m_head (sg m)) = KResponse a v c p) by (cbn [msg_method m_head]; unfold with_method; rewrite E; reflexivity). rewrite E, E' in *.
  assert (Hb : headers_complete (snd (x_base gz m text)) = true -> indifferent (snd (x_base gz m text))).
  { intro Hc. destruct (x_base gz m text) as [[t|e|] m1]; try (apply Hi; exact Hc). cbn [snd] in *.
    destruct (h_kind (m_head m1)) as [x y z w|rm1 v1 c1 p1] eqn:K1; [apply Hi; exact Hc|].
    destruct (complete m1 && (c1 =? 100)%Z) eqn:D; [|apply Hi; exact Hc]. apply andb_true_iff in D as [_ D]. apply Z.eqb_eq in D. subst c1.
    unfold indifferent, has_body, with_method. rewrite K1. cbn [h_kind set_kind code_no_body]. rewrite !Bool.andb_false_r. reflexivity. }
  destruct (sg_base m text Hr Hb) as [S R]. rewrite S. destruct (x_base gz m text) as [[t|e|] m1]; try (split; [reflexivity|exact R]). cbn [snd] in *. unfold sgx at 1. cbn [fst snd].
  pose proof R as (v1 & c1 & p1 & K1).
  assert (K1' : h_kind (m_head (sg m1)) = KResponse a v1 c1 p1) by (cbn [msg_method m_head]; unfold with_method; rewrite K1; reflexivity). rewrite K1, K1' in *.
  change (complete (sg m1)) with (complete m1). destruct (complete m1 && (c1 =? 100)%Z); [|split; [reflexivity|exact R]].
  set (n := mkmsg (m_buf m1) (m_off m1) (new_response_hdr b []) [] Start None (m_interim m1 ++ [m_head m1])) in *.
  assert (En : mkmsg (m_buf (sg m1)) (m_off (sg m1)) (new_response_hdr a []) [] Start None (m_interim (sg m1) ++ [m_head (sg m1)]) = sg n).
  { unfold n, msg_method. cbn [m_buf m_off m_head m_chunks m_mode m_reader m_interim]. rewrite map_app. reflexivity. }
  rewrite En. apply sg_base; [do 3 eexists; reflexivity|exact Hi].
Qed.
End S.

(** ** Once the start line is read it stays *)
Section R.
Variable gz : bytes -> outcome bytes.
Definition begun_line (m m' : msg) : Prop := h_kind (m_head m') = h_kind (m_head m) /\ m_mode m' <> Start.
Lemma keeps_begun m m1 m' : begun_line m m1 -> keeps m1 m' -> begun_line m m'.
Proof. intros [A1 A2] [B1 B2]. split; [congruence|]. destruct B2 as [B2|B2]; rewrite B2; [exact A2|discriminate]. Qed.
Lemma x_headers_begun f : forall m text, m_mode m <> Start -> begun_line m (snd (x_headers f m text)).
Proof.
  induction f as [|f IH]; intros m text H; [split; auto|]. cbn [x_headers]. destruct text as [|c t]; [split; auto|].
  assert (H' : begun_line m m) by (split; auto).
  destruct (feed_line m (c :: t)) as [[[l|] t'] m'] eqn:E; apply line_keeps in E; pose proof (keeps_begun _ _ _ H' E) as Hb.
  2:{ destruct Hb as [Hb1 Hb2]. destruct (IH m' t' Hb2) as [A1 A2]. split; [congruence|exact A2]. }
  unfold x_header_line. assert (K : forall h, add_header_line (m_head m') l = Ret h -> h_kind h = h_kind (m_head m')).
  { intros h. unfold add_header_line. destruct (is_folded l); [destruct (fold_last _ _); try discriminate; intro X; injection X as <-; reflexivity|].
    destruct (in_list l NEWLINES); [intro X; apply note_same in X; apply X|]. destruct (split_field l); try discriminate. intro X. injection X as <-. reflexivity. }
  destruct Hb as [Hb1 Hb2]. destruct (add_header_line (m_head m') l) as [h|e|] eqn:A.
  - specialize (K _ eq_refl). destruct (in_list l NEWLINES); [split; [cbn; congruence|discriminate]|].
    destruct (IH (set_head m' h) t' Hb2) as [A1 A2]. split; [rewrite A1; cbn; congruence|exact A2].
  - split; [|exact Hb2]. cbn [snd m_head set_head]. destruct (is_folded l); [exact Hb1|]. destruct (in_list l NEWLINES); [|exact Hb1].
    destruct (note_until_same (h_headers (m_head m')) (m_head m')) as (N & _). congruence.
  - split; [exact Hb1|exact Hb2].
Qed.
Lemma x_base_begun m text : m_mode m <> Start -> begun_line m (snd (x_base gz m text)).
Proof.
  intro H. unfold x_base. assert (R : begun_line m m) by (split; auto).
  replace (match m_mode m with Start => if empty_text text then (Ret text, m) else x_start m text | _ => (Ret text, m) end) with (@Ret bytes text, m) by (destruct (m_mode m); try reflexivity; contradiction).
  assert (C : forall m2 t2, begun_line m m2 -> begun_line m (snd (match m_mode m2 with Body => if empty_text t2 then (Ret t2, m2) else x_body m2 t2 | _ => (Ret t2, m2) end))).
  { intros m2 t2 H2. destruct (m_mode m2); try exact H2. destruct (empty_text t2); [exact H2|]. eapply keeps_begun; [exact H2|apply x_body_keeps]. }
  destruct (m_mode m) eqn:M1; try (apply C; exact R). destruct (empty_text text); [apply C; exact R|].
  pose proof (x_headers_begun (S (List.length text)) m text) as R2. rewrite M1 in R2. specialize (R2 H).
  destruct (x_headers (S (List.length text)) m text) as [[t'|e|] m']; try exact R2. cbn [snd] in R2. destruct (m_mode m') eqn:M2; try exact (C m' t' R2).
  pose proof (keeps_begun _ _ _ R2 (x_begin_keeps gz m' t')) as R3. destruct (x_begin gz m' t') as [[u|e|] m2]; try exact R3. exact (C m2 t' R3).
Qed.
Lemma request_feed_begun m text meth tgt ver cn : h_kind (m_head m) = KRequest meth tgt ver cn -> m_mode m <> Start -> begun_line m (snd (x_feed gz m text)).
Proof.
  intros K H. unfold x_feed. rewrite K. exact (x_base_begun m text H).
Qed.
Lemma request_does_begun m a meth tgt ver cn : h_kind (m_head m) = KRequest meth tgt ver cn -> m_mode m <> Start -> begun_line m (snd (does gz m a)).
Proof.
  intros K H. destruct a as [text|]; cbn [does]; [eapply request_feed_begun; eassumption|]. cbn [snd]. unfold close. destruct (m_reader m), (m_mode m) eqn:M; try contradiction; try (split; [reflexivity|congruence]); destruct (rev (m_chunks m)) as [|[o n] t]; split; try reflexivity; discriminate.
Qed.
Definition is_request (m : msg) : Prop := exists x y z w, h_kind (m_head m) = KRequest x y z w.
Lemma x_start_request m text : is_request m -> is_request (snd (x_start m text)).
Proof.
  intro H. unfold x_start. destruct (feed_line m text) as [[[l|] t'] m'] eqn:E; apply line_keeps in E as [E _]; [|unfold is_request; cbn; rewrite E; exact H].
  destruct (in_list l NEWLINES); [unfold is_request; cbn; rewrite E; exact H|]. destruct H as (x & y & z & w & H). rewrite H in E. unfold set_start_line. rewrite E.
  destruct (split_max 2 SP (rstrip l)) as [|method [|target [|version [|? ?]]]]; try (exists x, y, z, w; exact E).
  destruct (bytes_eqb (upper method) (B "CONNECT")).
  - destruct (split_all COLON target) as [|? [|? [|? ?]]]; try (exists x, y, z, w; exact E). do 4 eexists; reflexivity.
  - destruct (re_match url_rx target) as [g|]; [|do 4 eexists; reflexivity]. destruct (group 1 g); do 4 eexists; reflexivity.
Qed.
Lemma x_base_request m text : is_request m -> is_request (snd (x_base gz m text)).
Proof.
  intro H. assert (K : m_mode m <> Start -> is_request (snd (x_base gz m text))).
  { intro Hm. destruct (x_base_begun m text Hm) as [B _]. unfold is_request. rewrite B. exact H. }
  destruct (m_mode m) eqn:M; try (apply K; discriminate).
  destruct text as [|c t]; [unfold x_base; rewrite M; cbn [empty_text]; rewrite M, M; exact H|].
  pose proof (x_start_request m (c :: t) H) as R. unfold x_base. rewrite M. cbn [empty_text]. destruct (x_start m (c :: t)) as [[t1|e|] m1] eqn:E; try exact R. cbn [snd] in R.
  destruct (m_mode m1) eqn:M1; try (rewrite M1; exact R).
  - pose proof (x_base_begun m1 t1) as B. unfold x_base in B. rewrite !M1 in B. destruct B as [B _]; [discriminate|]. unfold is_request. rewrite B. exact R.
  - rewrite M1. destruct (empty_text t1); [exact R|]. destruct (x_body_keeps m1 t1) as [B _]. unfold is_request. rewrite B. exact R.
Qed.
Lemma does_request m a : is_request m -> is_request (snd (does gz m a)).
Proof.
  intro H. destruct a as [text|]; cbn [does].
  - unfold x_feed. destruct H as (x & y & z & w & H). rewrite H. apply x_base_request. exists x, y, z, w. exact H.
  - cbn [snd]. unfold close. destruct (m_reader m), (m_mode m); try exact H; destruct (rev (m_chunks m)) as [|[o n] t]; exact H.
Qed.
End R.
