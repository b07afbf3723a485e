(** The attributes of a message at any time: invariants. *)
From Verif Require Export Attrs ConnFacts.
From Coq Require Import String List Lia ZArith.
Open Scope list_scope.

(** ** the parser is not changed *)
Lemma a_start_msg m a text : fst (a_start m a text) = x_start m text.
Proof.
  unfold a_start, x_start. destruct (feed_line m text) as [[[line|] t] m']; [|reflexivity]. destruct (in_list line NEWLINES); [reflexivity|].
  destruct (set_start_line (m_head m') line); reflexivity.
Qed.
Lemma a_headers_msg f : forall m a text, fst (a_headers f m a text) = x_headers f m text.
Proof.
  induction f as [|f IH]; intros m a text; [reflexivity|]. cbn [a_headers x_headers]. destruct text as [|c t]; [reflexivity|].
  destruct (feed_line m (c :: t)) as [[[line|] t'] m']; [|apply IH]. cbv zeta. destruct (x_header_line (m_head m') line) as [[u|e|] h]; try reflexivity.
  destruct (in_list line NEWLINES); [reflexivity|apply IH].
Qed.
Section Gz.
Variable gz : bytes -> outcome bytes.
Lemma a_base_msg m a text : fst (a_base gz m a text) = x_base gz m text.
Proof.
  unfold a_base, x_base.
  assert (S1 : fst (match m_mode m with Start => if empty_text text then (Ret text, m, a) else a_start m a text | _ => (Ret text, m, a) end) =
               match m_mode m with Start => if empty_text text then (Ret text, m) else x_start m text | _ => (Ret text, m) end).
  { destruct (m_mode m); try reflexivity. destruct (empty_text text); [reflexivity|apply a_start_msg]. }
  destruct (match m_mode m with Start => if empty_text text then (Ret text, m, a) else a_start m a text | _ => (Ret text, m, a) end) as [[o1 m1] a1].
  cbn [fst] in S1. rewrite <- S1. destruct o1 as [t1|e|]; try reflexivity.
  assert (S2 : fst (match m_mode m1 with
                    | Headers => if empty_text t1 then (Ret t1, m1, a1)
                                 else match a_headers (S (List.length t1)) m1 a1 t1 with
                                      | (Ret text', m', a') => match m_mode m' with
                                                               | Body => match x_begin gz m' text' with
                                                                         | (Ret _, m2) => (Ret text', m2, a')
                                                                         | (Raise e, m2) => (Raise e, m2, a')
                                                                         | (Diverge, m2) => (Diverge, m2, a')
                                                                         end
                                                               | _ => (Ret text', m', a')
                                                               end
                                      | x => x
                                      end
                    | _ => (Ret t1, m1, a1)
                    end) =
               match m_mode m1 with
               | Headers => if empty_text t1 then (Ret t1, m1)
                            else match x_headers (S (List.length t1)) m1 t1 with
                                 | (Ret text', m') => match m_mode m' with
                                                      | Body => match x_begin gz m' text' with
                                                                | (Ret _, m2) => (Ret text', m2)
                                                                | (Raise e, m2) => (Raise e, m2)
                                                                | (Diverge, m2) => (Diverge, m2)
                                                                end
                                                      | _ => (Ret text', m')
                                                      end
                                 | (Raise e, m') => (Raise e, m')
                                 | (Diverge, m') => (Diverge, m')
                                 end
               | _ => (Ret t1, m1)
               end).
  { destruct (m_mode m1); try reflexivity. destruct (empty_text t1); [reflexivity|]. rewrite <- (a_headers_msg _ m1 a1 t1).
    destruct (a_headers (S (List.length t1)) m1 a1 t1) as [[[t'|e|] m'] a']; try reflexivity. cbn [fst].
    destruct (m_mode m'); try reflexivity. destruct (x_begin gz m' t') as [[u|e|] m2]; reflexivity. }
  match type of S2 with fst ?x = _ => destruct x as [[o2 m2] a2] end. cbn [fst] in S2. rewrite <- S2. destruct o2 as [t2|e|]; try reflexivity.
  destruct (m_mode m2); try reflexivity. destruct (empty_text t2); [reflexivity|]. destruct (x_body m2 t2) as [o3 m3]. reflexivity.
Qed.
Theorem a_feed_msg m a text : fst (a_feed gz m a text) = x_feed gz m text.
Proof.
  unfold a_feed, x_feed. destruct (h_kind (m_head m)); [apply a_base_msg|]. rewrite <- (a_base_msg m a text).
  destruct (a_base gz m a text) as [[[t1|e|] m1] a1]; try reflexivity. cbn [fst]. destruct (h_kind (m_head m1)); try reflexivity.
  destruct (_ && _); [apply a_base_msg|reflexivity].
Qed.
Lemma a_does_msg m a c : fst (a_does gz m a c) = does gz m c.
Proof. destruct c; [apply a_feed_msg|reflexivity]. Qed.
Theorem a_run_msg acts : forall m a, fst (a_run gz m a acts) = alone gz m acts.
Proof.
  induction acts as [|c acts IH]; intros m a; [reflexivity|]. cbn [a_run alone]. rewrite <- (a_does_msg m a c).
  destruct (a_does gz m a c) as [[o m'] a']. cbn [fst].
  destruct o; try reflexivity; rewrite <- (IH m' a'); destruct (a_run gz m' a' acts) as [[os m''] a'']; reflexivity.
Qed.

(** ** one line at a time *)
Lemma AB_nil m a : a_base gz m a [] = (Ret [], m, a).
Proof. unfold a_base. destruct (m_mode m) eqn:E; cbn [empty_text]; rewrite ?E; try reflexivity; rewrite E; reflexivity. Qed.
Lemma AB_done m a text : m_mode m = End \/ m_mode m = Incomplete -> a_base gz m a text = (Ret text, m, a).
Proof. intros [E|E]; unfold a_base; rewrite !E; reflexivity. Qed.
Lemma AB_body m a text : m_mode m = Body -> text <> [] -> a_base gz m a text = (let '(o, m') := x_body m text in (o, m', a)).
Proof. intros E H. unfold a_base. rewrite !E. destruct text; [contradiction|reflexivity]. Qed.
Lemma AB_start m a text : m_mode m = Start -> bwf m -> text <> [] -> a_base gz m a text =
  match split_once LF text with
  | Some (p, b) =>
      let line := pending m ++ p ++ [LF] in
      if in_list line NEWLINES then (Ret b, took m (p ++ [LF]), a)
      else match set_start_line (m_head m) line with
           | Ret h => a_base gz (set_mode (set_head (took m (p ++ [LF])) h) Headers) (a_start_line a line) b
           | Raise e => (Raise e, took m (p ++ [LF]), a_start_line a line)
           | Diverge => (Diverge, took m (p ++ [LF]), a)
           end
  | None => (Ret [], pushed m text, a)
  end.
Proof.
  intros Hm Hb Ht. unfold a_base at 1. rewrite Hm. replace (empty_text text) with false by (destruct text; [contradiction|reflexivity]).
  unfold a_start. rewrite feed_line_eq by exact Hb. destruct (split_once LF text) as [[p b]|] eqn:E.
  - cbv zeta. destruct (in_list _ NEWLINES).
    + change (m_mode (took m (p ++ [LF]))) with (m_mode m). rewrite Hm. change (m_mode (took m (p ++ [LF]))) with (m_mode m). rewrite Hm. reflexivity.
    + change (m_head (took m (p ++ [LF]))) with (m_head m). destruct (set_start_line _ _) as [h| |]; reflexivity.
  - change (m_mode (pushed m text)) with (m_mode m). rewrite Hm. change (m_mode (pushed m text)) with (m_mode m). rewrite Hm. reflexivity.
Qed.

(** ** the header list stays once the head is read *)
Definition fkeeps (m m' : msg) : Prop := (h_headers (m_head m'), m_interim m') = (h_headers (m_head m), m_interim m).
Lemma fkeeps_trans m1 m2 m3 : fkeeps m1 m2 -> fkeeps m2 m3 -> fkeeps m1 m3. Proof. unfold fkeeps. congruence. Qed.
Lemma line_f m text l t m' : feed_line m text = (l, t, m') -> fkeeps m m' /\ m_head m' = m_head m.
Proof. unfold feed_line. destruct (find_from LF (m_off m) (m_buf m ++ text)); intro H; injection H as <- <- <-; split; reflexivity. Qed.
Lemma x_chunk_start_f m s r text : fkeeps m (snd (x_chunk_start m s r text)).
Proof.
  unfold x_chunk_start. destruct (feed_line m text) as [[[l|] t] m'] eqn:E; apply line_f in E as [E _]; [|exact E].
  destruct (py_int 16 _) as [n|]; [exact E|]. destruct s; exact E.
Qed.
Lemma chunk_chunk_f m s r text : fkeeps m (fst (chunk_chunk m s r text)).
Proof.
  unfold chunk_chunk. assert (K : forall r' t m1, (if (0 <? r)%Z then feed_length m text r else (r, text, m)) = (r', t, m1) -> fkeeps m m1).
  { intros r' t m1. destruct (0 <? r)%Z; intro H; [unfold feed_length in H|]; injection H as <- <- <-; reflexivity. }
  destruct (if (0 <? r)%Z then feed_length m text r else (r, text, m)) as [[r' t] m1]. specialize (K _ _ _ eq_refl). destruct (r' =? 0)%Z; [|exact K].
  destruct (feed_line m1 t) as [[[l|] t2] m2] eqn:E; apply line_f in E as [E _]; exact (fkeeps_trans _ _ _ K E).
Qed.
Lemma trailer_f h line h' : add_trailer_line h line = Ret h' -> h_headers h' = h_headers h.
Proof.
  unfold add_trailer_line. destruct (is_folded line).
  - destruct (fold_last _ _); try discriminate. cbn [bind]. intro H. injection H as <-. reflexivity.
  - destruct (in_list _ _); [intro H; injection H as <-; reflexivity|]. destruct (split_field line); try discriminate. cbn [bind]. intro H. injection H as <-. reflexivity.
Qed.
Lemma x_trailer_f m s r text : fkeeps m (snd (x_trailer m s r text)).
Proof.
  unfold x_trailer. destruct (feed_line m text) as [[[l|] t] m'] eqn:E; apply line_f in E as [E _]; [|exact E]. unfold x_trailer_line.
  destruct (add_trailer_line (m_head m') l) as [h|e|] eqn:T; try exact E. apply trailer_f in T. eapply fkeeps_trans; [exact E|]. unfold fkeeps. cbn. rewrite T. reflexivity.
Qed.
Lemma x_pass_f m text : fkeeps m (snd (x_pass m text)).
Proof.
  unfold x_pass. assert (K : fkeeps m (snd (match m_reader m with Some (RChunk CStart st r) => x_chunk_start m st r text | _ => (Ret (Some text), m) end))).
  { destruct (m_reader m) as [[[] s r|r|z r]|]; try reflexivity. apply x_chunk_start_f. }
  destruct (match m_reader m with Some (RChunk CStart st r) => x_chunk_start m st r text | _ => (Ret (Some text), m) end) as [[[t1|]|e|] m1]; try exact K. cbn [snd] in K.
  assert (K2 : fkeeps m1 (fst (match m_reader m1 with Some (RChunk CChunk st r) => if empty_text t1 then (m1, t1) else chunk_chunk m1 st r t1 | _ => (m1, t1) end))).
  { destruct (m_reader m1) as [[[] s r|r|z r]|]; try reflexivity. destruct (empty_text t1); [reflexivity|apply chunk_chunk_f]. }
  destruct (match m_reader m1 with Some (RChunk CChunk st r) => if empty_text t1 then (m1, t1) else chunk_chunk m1 st r t1 | _ => (m1, t1) end) as [m2 t2]. cbn [fst] in K2.
  pose proof (fkeeps_trans _ _ _ K K2) as K3. destruct (m_reader m2) as [[[] s r|r|z r]|]; try exact K3. destruct (empty_text t2); [exact K3|].
  pose proof (x_trailer_f m2 s r t2) as K4. destruct (x_trailer m2 s r t2) as [[t|e|] m3]; exact (fkeeps_trans _ _ _ K3 K4).
Qed.
Lemma x_chunks_f f : forall m text, fkeeps m (snd (x_chunks f m text)).
Proof.
  induction f as [|f IH]; intros m text; [reflexivity|]. cbn [x_chunks]. destruct text as [|c t]; [reflexivity|].
  pose proof (x_pass_f m (c :: t)) as K. destruct (x_pass m (c :: t)) as [[[t'|]|e|] m']; try exact K. cbn [snd] in K.
  destruct (m_reader m') as [[[] s r|r|z r]|]; try (eapply fkeeps_trans; [exact K|apply IH]). exact K.
Qed.
Lemma x_raw_f m text : fkeeps m (snd (x_raw m text)).
Proof. unfold x_raw. destruct (m_chunks m) as [|[o n] [|e t]]; reflexivity. Qed.
Lemma x_body_f m text : fkeeps m (snd (x_body m text)).
Proof.
  unfold x_body. destruct (m_reader m) as [[c s r|r|z r]|]; [| | |apply x_raw_f].
  - pose proof (x_chunks_f (S (List.length text)) m text) as K. destruct (x_chunks _ m text) as [[[t'|]|e|] m']; try exact K.
  - unfold length_feed. destruct (0 <? r)%Z; [unfold feed_length|]; destruct (_ <=? 0)%Z; reflexivity.
  - unfold zip_feed. destruct (0 <? r)%Z; [unfold feed_length|]; destruct (_ <=? 0)%Z; reflexivity.
Qed.
Lemma x_begin_f m text : fkeeps m (snd (x_begin gz m text)).
Proof.
  unfold x_begin. destruct (begin_body gz m text) as [m'|e|] eqn:E; try reflexivity. cbn [snd]. unfold begin_body in E.
  destruct (negb (has_body (m_head m))); [injection E as <-; reflexivity|]. destruct (body_is_chunked (m_head m)); [injection E as <-; reflexivity|].
  destruct (body_length (m_head m)) as [n|]; [|injection E as <-; reflexivity].
  destruct (if match h_encoding (m_head m) with Some e => endswith (B "gzip") e | None => false end then zip_reader gz n text else Ret (RLength n)) as [r| |]; try discriminate.
  cbn [bind] in E. destruct (reader_remaining r =? 0)%Z; injection E as <-; reflexivity.
Qed.
(** ** the Host fields *)
Lemma longer_split v x h p : split_once COLON v = Some (h, p) -> split_once COLON (v ++ x) = Some (h, p ++ x).
Proof.
  revert h p. induction v as [|c v IH]; intros h p H; [discriminate|]. cbn [split_once app] in *. destruct (N.eqb c COLON); [injection H as <- <-; reflexivity|].
  destruct (split_once COLON v) as [[a b]|]; [|discriminate]. injection H as <- <-. rewrite (IH a b eq_refl). reflexivity.
Qed.
Lemma add_again a k v x : a_add_header (a_add_header a (k, v)) (k, v ++ x) = a_add_header a (k, v ++ x).
Proof.
  destruct a as [m t w h p s|v0 c p0]; [|reflexivity]. unfold a_add_header. cbn [fst snd]. destruct (bytes_eqb (lower k) (B "host")) eqn:E; [|reflexivity].
  destruct (split_once COLON v) as [[h1 p1]|] eqn:E1; destruct (split_once COLON (v ++ x)) as [[h2 p2]|] eqn:E2; try reflexivity.
  rewrite (longer_split _ x _ _ E1) in E2. discriminate.
Qed.
Definition hosts (a1 : attrs) (m : msg) (a : attrs) : Prop := a = fold_left a_add_header (h_headers (m_head m)) a1.
Lemma note_until_f l : forall h, h_headers (note_until h l) = h_headers h.
Proof. intro h. apply note_until_same. Qed.
Lemma header_line_f a1 h a line : a = fold_left a_add_header (h_headers h) a1 ->
  a_header_line a h line = fold_left a_add_header (h_headers (snd (x_header_line h line))) a1.
Proof.
  intro H. unfold a_header_line, x_header_line, add_header_line. destruct (is_folded line) eqn:Ef.
  - unfold fold_last. destruct (rev (h_headers h)) as [|[k v] t] eqn:E; [cbn [bind snd]; exact H|]. cbn [bind snd]. cbn [h_headers set_headers].
    assert (E' : h_headers h = rev t ++ [(k, v)]) by (rewrite <- (rev_involutive (h_headers h)), E; reflexivity).
    rewrite H, E', !fold_left_app. cbn [fold_left]. apply add_again.
  - destruct (in_list line NEWLINES) eqn:En.
    + destruct (note_headers h (h_headers h)) as [h'|e|] eqn:E; cbn [snd].
      * destruct (note_headers_spec _ _ _ E) as ((_ & N2 & _) & _). rewrite N2. exact H.
      * rewrite note_until_f. exact H.
      * exact H.
    + destruct (split_field line) as [nv|e|]; cbn [bind snd]; try exact H. cbn [h_headers set_headers]. rewrite fold_left_app, <- H. reflexivity.
Qed.
Lemma hosts_headers a1 f : forall m a text o m' a', hosts a1 m a -> a_headers f m a text = (o, m', a') -> hosts a1 m' a'.
Proof.
  induction f as [|f IH]; intros m a text o m' a' H E; cbn [a_headers] in E; [injection E as <- <- <-; exact H|].
  destruct text as [|c t]; [injection E as <- <- <-; exact H|]. destruct (feed_line m (c :: t)) as [[[line|] t'] m1] eqn:El; apply line_f in El as [_ El].
  - cbv zeta in E. assert (H1 : a = fold_left a_add_header (h_headers (m_head m1)) a1) by (rewrite El; exact H).
    pose proof (header_line_f a1 (m_head m1) a line H1) as P. destruct (x_header_line (m_head m1) line) as [[u|e|] h]; cbn [snd] in P.
    + destruct (in_list line NEWLINES); [injection E as <- <- <-; exact P|]. eapply IH; [|exact E]. exact P.
    + injection E as <- <- <-. exact P.
    + injection E as <- <- <-. exact P.
  - eapply IH; [|exact E]. unfold hosts. rewrite El. exact H.
Qed.
Lemma hosts_f a1 m a m' : hosts a1 m a -> fkeeps m m' -> hosts a1 m' a. Proof. unfold hosts, fkeeps. intros H K. injection K as K _. rewrite K. exact H. Qed.
Theorem hosts_base a1 m a text o m' a' : m_mode m <> Start -> hosts a1 m a -> a_base gz m a text = (o, m', a') -> hosts a1 m' a'.
Proof.
  intros Hm H E. unfold a_base in E.
  replace (match m_mode m with Start => if empty_text text then (Ret text, m, a) else a_start m a text | _ => (Ret text, m, a) end) with (@Ret bytes text, m, a) in E by (destruct (m_mode m); try reflexivity; contradiction).
  match type of E with match ?x with _ => _ end = _ => destruct x as [[o2 m2] a2] eqn:E2 end.
  assert (H2 : hosts a1 m2 a2).
  { destruct (m_mode m) eqn:M; try (injection E2 as <- <- <-; exact H). destruct (empty_text text); [injection E2 as <- <- <-; exact H|].
    destruct (a_headers _ m a text) as [[[t1|e|] m1] a1'] eqn:E1; pose proof (hosts_headers _ _ _ _ _ _ _ _ H E1) as H1; try (injection E2 as <- <- <-; exact H1).
    destruct (m_mode m1); try (injection E2 as <- <- <-; exact H1). pose proof (x_begin_f m1 t1) as K. destruct (x_begin gz m1 t1) as [[u|e|] m3]; injection E2 as <- <- <-; exact (hosts_f _ _ _ _ H1 K). }
  destruct o2 as [t2|e|]; try (injection E as <- <- <-; exact H2). destruct (m_mode m2); try (injection E as <- <- <-; exact H2).
  destruct (empty_text t2); [injection E as <- <- <-; exact H2|]. pose proof (x_body_f m2 t2) as K. destruct (x_body m2 t2) as [o3 m3]. injection E as <- <- <-. exact (hosts_f _ _ _ _ H2 K).
Qed.

(** ** the interim responses *)
Lemma x_headers_interim f : forall m text, m_interim (snd (x_headers f m text)) = m_interim m.
Proof.
  induction f as [|f IH]; intros m text; [reflexivity|]. cbn [x_headers]. destruct text as [|c t]; [reflexivity|].
  destruct (feed_line m (c :: t)) as [[[line|] t'] m'] eqn:E; apply line_f in E as [E _]; injection E as _ E; [|rewrite IH; exact E].
  destruct (x_header_line (m_head m') line) as [[u|e|] h]; try exact E. destruct (in_list line NEWLINES); [exact E|]. rewrite IH. exact E.
Qed.
Lemma x_start_interim m text : m_interim (snd (x_start m text)) = m_interim m.
Proof.
  unfold x_start. destruct (feed_line m text) as [[[line|] t'] m'] eqn:E; apply line_f in E as [E _]; injection E as _ E; [|exact E].
  destruct (in_list line NEWLINES); [exact E|]. destruct (set_start_line _ line); exact E.
Qed.
Lemma fk_interim m m' : fkeeps m m' -> m_interim m' = m_interim m. Proof. intro K. injection K as _ K. exact K. Qed.
Theorem x_base_interim m text : m_interim (snd (x_base gz m text)) = m_interim m.
Proof.
  unfold x_base. match goal with |- m_interim (snd (match ?x with _ => _ end)) = _ => assert (K : m_interim (snd x) = m_interim m) end.
  { destruct (m_mode m); try reflexivity. destruct (empty_text text); [reflexivity|apply x_start_interim]. }
  match goal with |- m_interim (snd (match ?x with _ => _ end)) = _ => destruct x as [[t1|e|] m1] end; try exact K. cbn [snd] in K.
  match goal with |- m_interim (snd (match ?x with _ => _ end)) = _ => assert (K2 : m_interim (snd x) = m_interim m) end.
  { destruct (m_mode m1); try exact K. destruct (empty_text t1); [exact K|]. pose proof (x_headers_interim (S (List.length t1)) m1 t1) as K1.
    destruct (x_headers _ m1 t1) as [[t2|e|] m2]; cbn [snd] in K1; try (cbn [snd]; congruence). destruct (m_mode m2); try (cbn [snd]; congruence).
    pose proof (fk_interim _ _ (x_begin_f m2 t2)) as K3. destruct (x_begin gz m2 t2) as [[u|e|] m3]; cbn [snd] in *; congruence. }
  match goal with |- m_interim (snd (match ?x with _ => _ end)) = _ => destruct x as [[t2|e|] m2] end; try exact K2. cbn [snd] in K2.
  destruct (m_mode m2); try exact K2. destruct (empty_text t2); [exact K2|]. rewrite (fk_interim _ _ (x_body_f m2 t2)). exact K2.
Qed.

(** ** the text only grows *)
Lemma took_grows m a : grows m (took m a). Proof. exists a. reflexivity. Qed.
Theorem x_base_grows m text o m' : inv m -> x_base gz m text = (o, m') -> o <> Diverge -> grows m m'.
Proof.
  intros Hi H Ho. destruct o as [t|e|]; [| |contradiction].
  - apply (base_feed_grows gz m text m' t Hi). rewrite <- x_base_plain by exact Hi. rewrite H. reflexivity.
  - apply (x_base_raise gz (List.length text)) in H; [|lia|exact Hi]. destruct H as [H|[H|(-> & _)]]; [| |exists []; symmetry; apply app_nil_r].
    + destruct H as (x & lost & m1 & h' & _ & B & _ & _ & ->). apply base_feed_grows in B; [|exact Hi]. eapply grows_trans; [exact B|]. exists [LF]. reflexivity.
    + destruct H as (x & lost & m1 & h' & _ & B & _ & _ & _ & _ & _ & -> & _). apply base_feed_grows in B; [|exact Hi]. eapply grows_trans; [exact B|]. exists [LF]. reflexivity.
Qed.

(** ** the start line *)
(** a complete line *)
Definition ended (l : bytes) : Prop := exists x, l = x ++ [LF] /\ no_lf' x.
Variable kind : option bytes.
(** a line before the start line: blank, or refused *)
Definition skipped (l : bytes) : Prop := ended l /\ (in_list l NEWLINES = true \/ exists e, set_start_line (start_hdr kind []) l = Raise e).
Definition waiting (earlier : bytes) (m : msg) (a : attrs) : Prop :=
  (m_mode m = Start \/ m_mode m = Incomplete) /\ h_kind (m_head m) = h_kind (start_hdr kind []) /\ h_headers (m_head m) = [] /\
  exists lines, firstn (m_off m) (m_buf m) = earlier ++ concat lines /\ Forall skipped lines /\ a = fold_left a_start_line lines (attrs_for kind).
Definition begun (earlier : bytes) (m : msg) (a : attrs) : Prop :=
  m_mode m <> Start /\ exists lines line rest h, m_buf m = earlier ++ concat lines ++ line ++ rest /\ Forall skipped lines /\
    ended line /\ in_list line NEWLINES = false /\ set_start_line (start_hdr kind []) line = Ret h /\ h_kind (m_head m) = h_kind h /\
    hosts (a_start_line (attrs_for kind) line) m a.
Lemma start_kind h h' line : h_kind h = h_kind h' ->
  match set_start_line h line, set_start_line h' line with
  | Ret x, Ret y => h_kind x = h_kind y /\ h_headers x = h_headers h
  | Raise e, Raise e' => e = e'
  | Diverge, Diverge => True
  | _, _ => False
  end.
Proof.
  intro E. unfold set_start_line. rewrite <- E. destruct (h_kind h) as [? ? ? ?|rm ? ? ?].
  - destruct (split_max 2 SP (rstrip line)) as [|m [|t [|v [|? ?]]]]; try reflexivity. destruct (bytes_eqb (upper m) (B "CONNECT")).
    + destruct (split_all COLON t) as [|x [|y [|? ?]]]; try reflexivity. split; reflexivity.
    + destruct (re_match url_rx t) as [g|]; [|split; reflexivity]. split; reflexivity.
  - destruct (split_max 2 SP (rstrip line)) as [|v [|c rest]]; try reflexivity. destruct (py_int 10 c); [|reflexivity].
    destruct (bytes_eqb v (B "HTTP/1.0")); split; reflexivity.
Qed.
(** refused lines change neither host nor port nor scheme *)
Definition untouched (a : attrs) : Prop :=
  match kind, a with
  | None, ARequest _ _ _ h p s => h = PText [] /\ p = PInt 80 /\ s = PText (B "http")
  | Some _, AResponse _ _ _ => True
  | _, _ => False
  end.
Lemma untouched_same a line : untouched a -> (exists h, set_start_line (start_hdr kind []) line = Ret h) -> a_start_line a line = a_start_line (attrs_for kind) line.
Proof.
  unfold untouched, attrs_for. intros U [h0 H]. destruct kind as [rm|]; destruct a as [m t v h p s|v c p]; try contradiction.
  - unfold a_start_line, response_attrs. unfold set_start_line, start_hdr, new_response_hdr in H. cbn [h_kind] in H. destruct (split_max 2 SP (rstrip line)) as [|v1 [|c1 rest]]; try discriminate. reflexivity.
  - destruct U as (-> & -> & ->). unfold a_start_line, request_attrs. unfold set_start_line, start_hdr, new_request_hdr in H. cbn [h_kind] in H. destruct (split_max 2 SP (rstrip line)) as [|m1 [|t1 [|v1 [|? ?]]]]; try discriminate. reflexivity.
Qed.
Lemma refused_untouched a l : untouched a -> skipped l -> untouched (a_start_line a l).
Proof.
  unfold untouched. intros U [_ H]. destruct kind as [rm|] eqn:K; destruct a as [m t v h p s|v c p]; try contradiction.
  - unfold a_start_line. destruct (split_max 2 SP (rstrip l)) as [|v1 [|c1 rest]]; exact I.
  - assert (R : (forall a b c, split_max 2 SP (rstrip l) <> [a; b; c]) \/ exists e, set_start_line (new_request_hdr []) l = Raise e).
    { destruct H as [H|H]; [left|right; exact H]. intros a b c. apply in_list_In in H. destruct H as [<-|[<-|[]]]; vm_compute; discriminate. }
    unfold a_start_line. destruct (split_max 2 SP (rstrip l)) as [|m1 [|t1 [|v1 [|? ?]]]] eqn:E; try exact U. destruct R as [R|[e R]]; [destruct (R _ _ _ eq_refl)|].
    unfold set_start_line, new_request_hdr in R. cbn [h_kind] in R. rewrite E in R. destruct (bytes_eqb (upper m1) (B "CONNECT")).
    + destruct (split_all COLON t1) as [|x [|y [|? ?]]]; try discriminate; exact U.
    + destruct (re_match url_rx t1); discriminate.
Qed.
Lemma lines_untouched lines : forall a, untouched a -> Forall skipped lines -> untouched (fold_left a_start_line lines a).
Proof.
  induction lines as [|l lines IH]; intros a U H; [exact U|]. inversion H; subst. cbn [fold_left]. apply IH; [|assumption]. apply refused_untouched; assumption.
Qed.
Lemma first_untouched : untouched (attrs_for kind). Proof. unfold untouched, attrs_for. destruct kind; repeat split. Qed.
(** blank lines assign nothing *)
Lemma blank_attrs a l : in_list l NEWLINES = true -> a_start_line a l = a.
Proof. intro H. apply in_list_In in H. destruct H as [<-|[<-|[]]]; destruct a; reflexivity. Qed.
Lemma firstn_took m x : bwf m -> firstn (m_off (took m x)) (m_buf (took m x)) = firstn (m_off m) (m_buf m) ++ pending m ++ x.
Proof. intros _. unfold took. cbn [m_off m_buf set_buf]. rewrite firstn_all, app_assoc. unfold pending. rewrite firstn_skipn. reflexivity. Qed.
Theorem told_base : forall earlier m a text o m' a', inv m -> waiting earlier m a \/ begun earlier m a -> a_base gz m a text = (o, m', a') -> o <> Diverge ->
  waiting earlier m' a' \/ begun earlier m' a'.
Proof.
  assert (Beg : forall earlier m a text o m' a', inv m -> begun earlier m a -> a_base gz m a text = (o, m', a') -> o <> Diverge -> begun earlier m' a').
  { intros earlier m a text o m' a' Hi (Hm & lines & line & rest & h & B1 & B2 & B3 & B4 & B5 & B6 & B7) E Ho.
    pose proof (a_base_msg m a text) as X. rewrite E in X. cbn [fst] in X. symmetry in X. pose proof (x_base_grows _ _ _ _ Hi X Ho) as [u G].
    pose proof (x_base_begun gz m text Hm) as [K1 K2]. rewrite X in K1, K2. cbn [snd] in K1, K2. split; [exact K2|].
    exists lines, line, (rest ++ u), h. split; [rewrite G, B1, <- !app_assoc; reflexivity|]. do 4 (split; [assumption|]). split; [congruence|]. exact (hosts_base _ _ _ _ _ _ _ Hm B7 E). }
  intros earlier m a text o m' a' Hi [W|Bg] E Ho; [|right; eapply Beg; eassumption].
  destruct text as [|c t]; [rewrite AB_nil in E; injection E as <- <- <-; left; exact W|].
  destruct W as (Hm & Hk & Hh & lines & L1 & L2 & L3). pose proof Hi as [[Hb [Hr _]] _].
  destruct Hm as [Hm|Hm]; [|rewrite AB_done in E by auto; injection E as <- <- <-; left; split; [auto|split; [exact Hk|split; [exact Hh|exists lines; auto]]]].
  rewrite AB_start in E by (try assumption; discriminate). destruct (split_once LF (c :: t)) as [[p b]|] eqn:Es.
  - cbv zeta in E. pose proof (lf_parts _ _ _ Es) as (_ & Np & _). set (line := pending m ++ p ++ [LF]) in *.
    assert (En : ended line). { exists (pending m ++ p). split; [unfold line; rewrite app_assoc; reflexivity|]. destruct Hb as [_ Hb]. unfold no_lf' in *. rewrite in_app_iff. tauto. }
    assert (F : firstn (m_off (took m (p ++ [LF]))) (m_buf (took m (p ++ [LF]))) = earlier ++ concat (lines ++ [line])).
    { rewrite firstn_took by exact Hb. rewrite L1, concat_app. cbn [concat]. rewrite app_nil_r, <- !app_assoc. reflexivity. }
    pose proof (start_kind (m_head m) (start_hdr kind []) line Hk) as S.
    destruct (in_list line NEWLINES) eqn:Nl.
    { injection E as <- <- <-. left. split; [left; exact Hm|]. split; [exact Hk|]. split; [exact Hh|]. exists (lines ++ [line]). split; [exact F|].
      split; [apply Forall_app; split; [exact L2|]; constructor; [split; auto|constructor]|]. etransitivity; [|symmetry; apply fold_left_app]. etransitivity; [|exact (f_equal (fun z => a_start_line z line) L3)]. symmetry. apply blank_attrs. exact Nl. }
    destruct (set_start_line (m_head m) line) as [h|e|] eqn:Eh; destruct (set_start_line (start_hdr kind []) line) as [h0|e0|] eqn:Eh0; try contradiction.
    + right. destruct S as [S1 S2]. eapply Beg; [| |exact E|exact Ho].
      * apply reader_none_inv; [apply bwf_mode, bwf_head, bwf_took|]. change (m_reader m = None). apply Hr. auto.
      * split; [discriminate|]. exists lines, line, [], h0. split.
        { change (m_buf m ++ p ++ [LF] = earlier ++ concat lines ++ line ++ []). rewrite app_nil_r. unfold line.
          transitivity ((firstn (m_off m) (m_buf m) ++ pending m) ++ p ++ [LF]); [unfold pending; rewrite firstn_skipn; reflexivity|]. rewrite L1, <- !app_assoc. reflexivity. }
        split; [exact L2|]. split; [exact En|]. split; [exact Nl|]. split; [exact Eh0|]. split; [exact S1|].
        unfold hosts. change (a_start_line a line = fold_left a_add_header (h_headers h) (a_start_line (attrs_for kind) line)). rewrite S2, Hh. cbn [fold_left].
        apply untouched_same; [|eauto]. rewrite L3. apply lines_untouched; [apply first_untouched|exact L2].
    + injection E as <- <- <-. left. split; [left; exact Hm|]. split; [exact Hk|]. split; [exact Hh|]. exists (lines ++ [line]). split; [exact F|].
      split; [apply Forall_app; split; [exact L2|]; constructor; [split; eauto|constructor]|]. etransitivity; [|symmetry; apply fold_left_app]. exact (f_equal (fun z => a_start_line z line) L3).
    + injection E as <- <- <-. contradiction.
  - injection E as <- <- <-. left. split; [left; exact Hm|]. split; [exact Hk|]. split; [exact Hh|]. exists lines. split; [|auto].
    change (firstn (m_off m) (m_buf m ++ c :: t) = earlier ++ concat lines). destruct Hb as [Hb _]. rewrite firstn_app. replace (m_off m - List.length (m_buf m)) with 0 by lia. rewrite app_nil_r. exact L1.
Qed.

(** ** any calls *)
Definition told (m : msg) (a : attrs) : Prop := exists earlier, (m_interim m = [] -> earlier = []) /\ (waiting earlier m a \/ begun earlier m a).
Lemma close_inv m : inv m -> inv (close m).
Proof.
  intros [[Hb [Hr [Hc Hd]]] Hz]. unfold close.
  assert (G : forall m1, m_buf m1 = m_buf m -> m_off m1 = m_off m -> m_head m1 = m_head m -> m_reader m1 = m_reader m -> m_mode m1 <> Start -> m_mode m1 <> Headers -> inv m1).
  { intros m1 E1 E2 E3 E4 M1 M2. split.
    - split; [unfold bwf, pending in *; rewrite E1, E2; exact Hb|]. split; [intros [X|X]; contradiction|]. rewrite E3, E4. auto.
    - unfold zipped in *. rewrite E3, E4. exact Hz. }
  destruct (m_reader m) as [rd|] eqn:R; destruct (m_mode m) eqn:M; try (split; [split; [exact Hb|split; [rewrite M; intros [X|X]; discriminate|rewrite R; auto]]|exact Hz]);
    try (apply G; cbn; auto; discriminate); apply G; destruct (rev (m_chunks m)) as [|[x y] z]; cbn; auto; discriminate.
Qed.
Lemma close_parts m : m_buf (close m) = m_buf m /\ m_off (close m) = m_off m /\ m_head (close m) = m_head m /\ m_interim (close m) = m_interim m /\
  (m_mode (close m) <> Start) /\ (m_mode m = Start \/ m_mode m = Incomplete -> m_mode (close m) = Incomplete).
Proof.
  unfold close. destruct (m_reader m) as [rd|]; destruct (m_mode m) eqn:M; try (destruct (rev (m_chunks m)) as [|[x y] z]); cbn; rewrite ?M; repeat split; try discriminate; auto; intros [X|X]; discriminate.
Qed.
Lemma told_close m a : told m a -> told (close m) a.
Proof.
  intros (earlier & He & H). destruct (close_parts m) as (C1 & C2 & C3 & C4 & C5 & C6). exists earlier. rewrite C4. split; [exact He|]. destruct H as [(Hm & Hk & Hh & lines & L)|(Hm & X)].
  - left. split; [right; apply C6; exact Hm|]. rewrite C1, C2, C3. split; [exact Hk|]. split; [exact Hh|]. exists lines. exact L.
  - right. split; [exact C5|]. unfold hosts in *. rewrite C1, C3. exact X.
Qed.
Theorem told_feed m a text o m' a' : inv m -> told m a -> a_feed gz m a text = (o, m', a') -> o <> Diverge -> told m' a'.
Proof.
  intros Hi (earlier & He & H) E Ho.
  assert (Ba : forall o1 m1 a1, a_base gz m a text = (o1, m1, a1) -> o1 <> Diverge -> (m_interim m1 = [] -> earlier = []) /\ (waiting earlier m1 a1 \/ begun earlier m1 a1)).
  { intros o1 m1 a1 E1 N. split; [|exact (told_base _ _ _ _ _ _ _ Hi H E1 N)]. pose proof (x_base_interim m text) as K. rewrite <- (a_base_msg m a text), E1 in K. cbn [fst snd] in K. rewrite K. exact He. }
  unfold a_feed in E. destruct (h_kind (m_head m)) as [k1 k2 k3 k4|k1 k2 k3 k4] eqn:Hk0.
  - exists earlier. exact (Ba _ _ _ E Ho).
  - destruct (a_base gz m a text) as [[[t1|e|] m1] a1] eqn:E1; try (injection E as <- <- <-; exists earlier; apply (Ba _ _ _ eq_refl); discriminate); [|injection E as <- <- <-; contradiction].
    assert (N1 : @Ret bytes t1 <> Diverge) by discriminate. destruct (Ba _ _ _ eq_refl N1) as [I1 W1].
    destruct (h_kind (m_head m1)) as [? ? ? ?|rm v code ph] eqn:Hk1; [injection E as <- <- <-; exists earlier; auto|].
    destruct (complete m1 && (code =? 100)%Z) eqn:Cc; [|injection E as <- <- <-; exists earlier; auto]. apply andb_prop in Cc as [C1 C2]. apply Z.eqb_eq in C2. subst code.
    assert (M1 : m_mode m1 = End) by (unfold complete in C1; destruct (m_mode m1); try discriminate; reflexivity).
    destruct W1 as [([W|W] & _)|(Hm & lines & line & rest & h & B1 & B2 & B3 & B4 & B5 & B6 & B7)]; [rewrite M1 in W; discriminate|rewrite M1 in W; discriminate|].
    assert (K : kind = Some rm).
    { rewrite Hk1 in B6. unfold start_hdr, set_start_line, new_request_hdr, new_response_hdr in B5. destruct kind as [rm'|]; cbn [h_kind] in B5.
      - destruct (split_max 2 SP (rstrip line)) as [|v1 [|c1 r1]]; try discriminate. destruct (py_int 10 c1); try discriminate. injection B5 as <-.
        destruct (bytes_eqb v1 (B "HTTP/1.0")); cbn in B6; injection B6 as <- _ _ _; reflexivity.
      - destruct (split_max 2 SP (rstrip line)) as [|a0 [|b0 [|c0 [|? ?]]]]; try discriminate. destruct (bytes_eqb (upper a0) (B "CONNECT")).
        + destruct (split_all COLON b0) as [|x [|y [|? ?]]]; try discriminate. injection B5 as <-. discriminate.
        + destruct (re_match url_rx b0) as [g|]; [|injection B5 as <-; discriminate]. injection B5 as <-. destruct (group 1 g); discriminate. }
    assert (X1 : base_feed gz m text = Ret (m1, t1)).
    { rewrite <- x_base_plain by exact Hi. rewrite <- (a_base_msg m a text), E1. reflexivity. }
    assert (D : continue_done m1) by (split; [exact C1|unfold status; rewrite Hk1; reflexivity]).
    assert (Hb1 : bwf m1) by (apply base_feed_inv in X1; [apply X1|exact Hi]).
    pose proof (after_inv m1 Hb1 D) as Ia. unfold after_continue in Ia. rewrite Hk1 in Ia.
    match type of E with a_base gz ?mm _ _ = _ => set (m2 := mm) in *; pose proof (x_base_interim m2 t1) as Ki end.
    rewrite <- (a_base_msg m2 response_attrs t1), E in Ki. cbn [fst snd] in Ki. cbn [m2 m_interim] in Ki.
    exists (firstn (m_off m1) (m_buf m1)). split; [intro Y; rewrite Ki in Y; destruct (m_interim m1); discriminate|].
    eapply (told_base _ m2); [exact Ia| |exact E|exact Ho]. left. split; [left; reflexivity|]. rewrite K. split; [reflexivity|]. split; [reflexivity|].
    exists []. split; [cbn; rewrite app_nil_r; reflexivity|]. split; [constructor|reflexivity].
Qed.
Lemma told_new ign : told (parser_for kind ign) (attrs_for kind).
Proof.
  exists []. split; [reflexivity|]. left. split; [left; destruct kind; reflexivity|]. split; [destruct kind; reflexivity|]. split; [destruct kind; reflexivity|].
  exists []. split; [destruct kind; reflexivity|]. split; [constructor|reflexivity].
Qed.
Theorem told_run acts : forall m a outs m' a', inv m -> told m a -> a_run gz m a acts = (outs, m', a') -> ~ In Diverge outs -> inv m' /\ told m' a'.
Proof.
  induction acts as [|c acts IH]; intros m a outs m' a' Hi T E N; cbn [a_run] in E; [injection E as <- <- <-; auto|].
  destruct (a_does gz m a c) as [[o m1] a1] eqn:E1.
  assert (G : o <> Diverge -> inv m1 /\ told m1 a1).
  { intro Ho. destruct c as [text|]; cbn [a_does] in E1.
    - split; [|exact (told_feed _ _ _ _ _ _ Hi T E1 Ho)]. apply (x_feed_inv gz m text o m1 Hi); [|exact Ho]. rewrite <- (a_feed_msg m a text), E1. reflexivity.
    - injection E1 as <- <- <-. split; [apply close_inv; exact Hi|apply told_close; exact T]. }
  destruct o as [t|e|].
  - destruct (a_run gz m1 a1 acts) as [[os m2] a2] eqn:E2. injection E as <- <- <-. destruct (G ltac:(discriminate)) as [I1 T1]. eapply IH; [exact I1|exact T1|exact E2|]. intro X. apply N. right. exact X.
  - destruct (a_run gz m1 a1 acts) as [[os m2] a2] eqn:E2. injection E as <- <- <-. destruct (G ltac:(discriminate)) as [I1 T1]. eapply IH; [exact I1|exact T1|exact E2|]. intro X. apply N. right. exact X.
  - injection E as <- <- <-. exfalso. apply N. left. reflexivity.
Qed.
End Gz.
