(** Facts about the HTTP parser: conservation of bytes, enough fuel, and the
    byte-at-a-time law. *)
From Verif Require Export Http PyBytesFacts.
From Coq Require Import String List Lia.
Open Scope list_scope.

Definition no_lf' (s : bytes) : Prop := ~ In LF s.
Definition pending (m : msg) : bytes := skipn (m_off m) (m_buf m).
(** the buffer holds no complete line that was not processed *)
Definition bwf (m : msg) : Prop := m_off m <= List.length (m_buf m) /\ no_lf' (pending m).

Lemma msg_eta m : mkmsg (m_buf m) (m_off m) (m_head m) (m_chunks m) (m_mode m) (m_reader m) (m_interim m) = m.
Proof. destruct m; reflexivity. Qed.
Lemma skipn_len_app {A} n (a b : list A) : n <= List.length a -> skipn n (a ++ b) = skipn n a ++ b.
Proof. intro H. rewrite skipn_app. replace (n - List.length a) with 0 by lia. reflexivity. Qed.
Lemma split_once_app sep a b : split_once sep a = None -> split_once sep (a ++ b) =
  match split_once sep b with Some (x, y) => Some (a ++ x, y) | None => None end.
Proof.
  induction a as [|c a IH]; intro H; cbn [app split_once] in *.
  - destruct (split_once sep b) as [[x y]|]; reflexivity.
  - destruct (N.eqb c sep); [discriminate|]. destruct (split_once sep a) as [[x y]|]; [discriminate|].
    rewrite IH by reflexivity. destruct (split_once sep b) as [[x y]|]; reflexivity.
Qed.
Lemma find_byte_split c s : find_byte c s = match split_once c s with Some (a, _) => Some (List.length a) | None => None end.
Proof.
  induction s as [|x t IH]; [reflexivity|]. cbn [find_byte split_once]. destruct (N.eqb x c); [reflexivity|].
  rewrite IH. destruct (split_once c t) as [[a b]|]; reflexivity.
Qed.
Lemma no_lf_split s : no_lf' s -> split_once LF s = None.
Proof. intro H. apply split_once_none. exact H. Qed.
(** feed_line in terms of the first line end of the new text *)
Definition took (m : msg) (a : bytes) : msg := set_buf m (m_buf m ++ a) (List.length (m_buf m ++ a)).
Definition pushed (m : msg) (a : bytes) : msg := set_buf m (m_buf m ++ a) (m_off m).
Lemma feed_line_eq m text : bwf m -> feed_line m text =
  match split_once LF text with
  | Some (a, b) => (Some (pending m ++ a ++ [LF]), b, took m (a ++ [LF]))
  | None => (None, [], pushed m text)
  end.
Proof.
  intros [Ho Hp]. unfold feed_line, find_from. rewrite skipn_len_app by exact Ho. fold (pending m).
  rewrite find_byte_split, (split_once_app _ _ _ (no_lf_split _ Hp)).
  destruct (split_once LF text) as [[a b]|] eqn:E; [|reflexivity].
  apply split_once_some in E as [E _]. subst text.
  assert (El : S (m_off m + List.length (pending m ++ a)) = List.length (m_buf m ++ a ++ [LF])).
  { unfold pending. rewrite !app_length, skipn_length. cbn [List.length]. lia. }
  rewrite El. replace (m_buf m ++ a ++ LF :: b) with ((m_buf m ++ a ++ [LF]) ++ b) by (rewrite <- !app_assoc; reflexivity).
  assert (F1 : firstn (List.length (m_buf m ++ a ++ [LF])) ((m_buf m ++ a ++ [LF]) ++ b) = m_buf m ++ a ++ [LF])
    by (rewrite firstn_app, firstn_all, Nat.sub_diag; apply app_nil_r).
  assert (F2 : skipn (List.length (m_buf m ++ a ++ [LF])) ((m_buf m ++ a ++ [LF]) ++ b) = b)
    by (rewrite skipn_app, skipn_all, Nat.sub_diag; reflexivity).
  rewrite F1, F2, skipn_len_app by exact Ho. reflexivity.
Qed.
(** no bytes are lost by a line *)
Lemma feed_line_bytes m text l t m' : feed_line m text = (l, t, m') -> m_buf m' ++ t = m_buf m ++ text.
Proof.
  unfold feed_line. destruct (find_from LF (m_off m) (m_buf m ++ text)) as [pos|]; intro H; injection H as <- <- <-; cbn [m_buf set_buf].
  - apply (firstn_skipn (S pos)).
  - apply app_nil_r.
Qed.
Lemma feed_length_bytes m text r r' t m' : feed_length m text r = (r', t, m') -> m_buf m' ++ t = m_buf m ++ text.
Proof. unfold feed_length. intro H. injection H as <- <- <-. cbn [m_buf set_buf]. rewrite <- app_assoc, firstn_skipn. reflexivity. Qed.
Lemma feed_line_keeps m text l t m' : feed_line m text = (l, t, m') ->
  m_head m' = m_head m /\ m_chunks m' = m_chunks m /\ m_mode m' = m_mode m /\ m_reader m' = m_reader m /\ m_interim m' = m_interim m.
Proof. unfold feed_line. destruct (find_from LF (m_off m) (m_buf m ++ text)); intro H; injection H as <- <- <-; auto. Qed.

Lemma feed_start_bytes m text m' t : feed_start m text = Ret (m', t) -> m_buf m' ++ t = m_buf m ++ text.
Proof.
  unfold feed_start. destruct (feed_line m text) as [[[l|] t1] m1] eqn:E; apply feed_line_bytes in E.
  - destruct (in_list l NEWLINES); [intro H; injection H as <- <-; exact E|].
    destruct (set_start_line (m_head m1) l); try discriminate. cbn [bind]. intro H. injection H as <- <-. exact E.
  - intro H. injection H as <- <-. exact E.
Qed.
Lemma feed_headers_bytes f : forall m text m' t, feed_headers f m text = Ret (m', t) -> m_buf m' ++ t = m_buf m ++ text.
Proof.
  induction f as [|f IH]; intros m text m' t H; [discriminate|]. cbn [feed_headers] in H.
  destruct text as [|c text]; [injection H as <- <-; reflexivity|].
  destruct (feed_line m (c :: text)) as [[[l|] t1] m1] eqn:E; apply feed_line_bytes in E.
  - destruct (add_header_line (m_head m1) l) as [h| |]; try discriminate. cbn [bind] in H.
    destruct (in_list l NEWLINES); [injection H as <- <-; exact E|]. apply IH in H. rewrite <- E. exact H.
  - apply IH in H. rewrite <- E. exact H.
Qed.
Lemma chunk_start_bytes m s r text m' t : chunk_start m s r text = Ret (Some (m', t)) -> m_buf m' ++ t = m_buf m ++ text.
Proof.
  unfold chunk_start. destruct (feed_line m text) as [[[l|] t1] m1] eqn:E; apply feed_line_bytes in E.
  - destruct (py_int 16 _); [|destruct s; discriminate]. intro H. injection H as <- <-. exact E.
  - intro H. injection H as <- <-. exact E.
Qed.
Lemma chunk_chunk_bytes m s r text m' t : chunk_chunk m s r text = (m', t) -> m_buf m' ++ t = m_buf m ++ text.
Proof.
  unfold chunk_chunk. destruct (if (0 <? r)%Z then feed_length m text r else (r, text, m)) as [[r1 t1] m1] eqn:E.
  assert (E1 : m_buf m1 ++ t1 = m_buf m ++ text).
  { destruct (0 <? r)%Z; [exact (feed_length_bytes _ _ _ _ _ _ E)|]. injection E as <- <- <-. reflexivity. }
  destruct (r1 =? 0)%Z; [|intro H; injection H as <- <-; exact E1].
  destruct (feed_line m1 t1) as [[[l|] t2] m2] eqn:E2; apply feed_line_bytes in E2; intro H; injection H as <- <-;
    cbn [m_buf set_creader set_reader]; congruence.
Qed.
Lemma chunk_trailer_bytes m s r text m' t : chunk_trailer m s r text = Ret (m', t) -> m_buf m' ++ t = m_buf m ++ text.
Proof.
  unfold chunk_trailer. destruct (feed_line m text) as [[[l|] t1] m1] eqn:E; apply feed_line_bytes in E.
  - destruct (add_trailer_line (m_head m1) l); try discriminate. cbn [bind]. intro H. injection H as <- <-. exact E.
  - intro H. injection H as <- <-. exact E.
Qed.
Lemma chunk_pass_bytes m text m' t : chunk_pass m text = Ret (Some (m', t)) -> m_buf m' ++ t = m_buf m ++ text.
Proof.
  unfold chunk_pass. set (x := match m_reader m with Some (RChunk CStart st r) => chunk_start m st r text | _ => Ret (Some (m, text)) end).
  destruct x as [[[m1 t1]|]| |] eqn:Ex; try discriminate. cbn [bind].
  assert (E1 : m_buf m1 ++ t1 = m_buf m ++ text).
  { unfold x in Ex. destruct (m_reader m) as [[[] ? ?|?|? ?]|]; try (injection Ex as <- <-; reflexivity). exact (chunk_start_bytes _ _ _ _ _ _ Ex). }
  destruct (match m_reader m1 with Some (RChunk CChunk st r) => if empty_text t1 then (m1, t1) else chunk_chunk m1 st r t1 | _ => (m1, t1) end) as [m2 t2] eqn:E2.
  assert (E3 : m_buf m2 ++ t2 = m_buf m1 ++ t1).
  { destruct (m_reader m1) as [[[] s r|?|? ?]|]; try (injection E2 as <- <-; reflexivity).
    destruct (empty_text t1); [injection E2 as <- <-; reflexivity|]. exact (chunk_chunk_bytes _ _ _ _ _ _ E2). }
  intro H. enough (m_buf m' ++ t = m_buf m2 ++ t2) by congruence.
  destruct (m_reader m2) as [[[] s r|?|? ?]|]; try (injection H as <- <-; reflexivity).
  destruct (empty_text t2); [injection H as <- <-; reflexivity|].
  destruct (chunk_trailer m2 s r t2) as [[m3 t3]| |] eqn:E4; try discriminate. cbn [bind] in H. injection H as <- <-.
  exact (chunk_trailer_bytes _ _ _ _ _ _ E4).
Qed.
Lemma chunk_feed_bytes f : forall m text m' t, chunk_feed f m text = Ret (Some (m', t)) -> m_buf m' ++ t = m_buf m ++ text.
Proof.
  induction f as [|f IH]; intros m text m' t H; [discriminate|]. cbn [chunk_feed] in H.
  destruct text as [|c text]; [injection H as <- <-; reflexivity|].
  destruct (chunk_pass m (c :: text)) as [[[m1 t1]|]| |] eqn:E; try discriminate. cbn [bind] in H. apply chunk_pass_bytes in E.
  destruct (m_reader m1) as [[[] s r|?|? ?]|]; try (apply IH in H; congruence).
  injection H as <- <-. exact E.
Qed.
Definition zipped (m : msg) : Prop := exists z r, m_reader m = Some (RZip z r).
Lemma raw_body_bytes m text m' t : raw_body m text = Ret (m', t) -> m_buf m' ++ t = m_buf m ++ text.
Proof. unfold raw_body. destruct (m_chunks m) as [|[o n] [|? ?]]; try discriminate. intro H. injection H as <- <-. cbn [m_buf set_chunks set_buf]. apply app_nil_r. Qed.
Lemma feed_body_bytes m text m' t : feed_body m text = Ret (m', t) -> ~ zipped m' -> m_buf m' ++ t = m_buf m ++ text.
Proof.
  unfold feed_body. intros H Hz. destruct (m_reader m) as [[c s r|r|z r]|].
  - destruct (chunk_feed _ m text) as [[[m1 t1]|]| |] eqn:E; try discriminate; cbn [bind] in H.
    + injection H as <- <-. exact (chunk_feed_bytes _ _ _ _ _ E).
    + apply raw_body_bytes in H. exact H.
  - injection H as H. unfold length_feed in H. destruct (if (0 <? r)%Z then feed_length m text r else (r, text, m)) as [[r1 t1] m1] eqn:E.
    assert (E1 : m_buf m1 ++ t1 = m_buf m ++ text).
    { destruct (0 <? r)%Z; [exact (feed_length_bytes _ _ _ _ _ _ E)|]. injection E as <- <- <-. reflexivity. }
    injection H as <- <-. rewrite <- E1. destruct (r1 <=? 0)%Z; reflexivity.
  - exfalso. apply Hz. injection H as H. unfold zip_feed in H.
    destruct (if (0 <? r)%Z then _ else _) as [[r1 t1] m1]. injection H as <- <-. exists z, r1. destruct (r1 <=? 0)%Z; reflexivity.
  - exact (raw_body_bytes _ _ _ _ H).
Qed.
Section G.
Variable gz : bytes -> outcome bytes.
Lemma begin_body_buf m text m' : begin_body gz m text = Ret m' -> m_buf m' = m_buf m.
Proof.
  unfold begin_body. destruct (negb (has_body (m_head m))); [intro H; injection H as <-; reflexivity|].
  destruct (body_is_chunked (m_head m)); [intro H; injection H as <-; reflexivity|].
  destruct (body_length (m_head m)); [|intro H; injection H as <-; reflexivity].
  match goal with |- bind ?x _ = _ -> _ => destruct x as [rd| |] end; try discriminate. cbn [bind]. intro H. injection H as <-.
  destruct (reader_remaining rd =? 0)%Z; reflexivity.
Qed.
Lemma base_feed_bytes m text m' t : base_feed gz m text = Ret (m', t) -> ~ zipped m' -> m_buf m' ++ t = m_buf m ++ text.
Proof.
  unfold base_feed. intros H Hz.
  match type of H with bind ?x _ = _ => destruct x as [[m1 t1]| |] eqn:E1 end; try discriminate. cbn [bind] in H.
  assert (A1 : m_buf m1 ++ t1 = m_buf m ++ text).
  { destruct (m_mode m); try (injection E1 as <- <-; reflexivity). destruct (empty_text text); [injection E1 as <- <-; reflexivity|exact (feed_start_bytes _ _ _ _ E1)]. }
  match type of H with bind ?x _ = _ => destruct x as [[m2 t2]| |] eqn:E2 end; try discriminate. cbn [bind] in H.
  assert (A2 : m_buf m2 ++ t2 = m_buf m1 ++ t1).
  { destruct (m_mode m1); try (injection E2 as <- <-; reflexivity). destruct (empty_text t1); [injection E2 as <- <-; reflexivity|].
    destruct (feed_headers _ m1 t1) as [[m3 t3]| |] eqn:E3; try discriminate. cbn [bind] in E2. apply feed_headers_bytes in E3.
    destruct (m_mode m3); try (injection E2 as <- <-; exact E3).
    destruct (begin_body gz m3 t3) as [m4| |] eqn:E4; try discriminate. cbn [bind] in E2. injection E2 as <- <-.
    rewrite (begin_body_buf _ _ _ E4). exact E3. }
  rewrite <- A1, <- A2. destruct (m_mode m2); try (injection H as <- <-; reflexivity).
  destruct (empty_text t2); [injection H as <- <-; reflexivity|]. exact (feed_body_bytes _ _ _ _ H Hz).
Qed.
End G.

(** ** the chunk reader, line by line *)
Lemma bwf_took m a : bwf (took m a).
Proof. split; [cbn; lia|]. unfold pending, took. cbn [m_off m_buf set_buf]. rewrite skipn_all. intros []. Qed.
Lemma pending_pushed m a : m_off m <= List.length (m_buf m) -> pending (pushed m a) = pending m ++ a.
Proof. intro H. unfold pending, pushed. cbn [m_off m_buf set_buf]. apply skipn_len_app. exact H. Qed.
Lemma bwf_pushed m a : bwf m -> no_lf' a -> bwf (pushed m a).
Proof.
  intros [H1 H2] Ha. split; [cbn [pushed m_off m_buf set_buf]; rewrite app_length; lia|].
  rewrite pending_pushed by exact H1. intro H. apply in_app_or in H as [H|H]; auto.
Qed.
Lemma bwf_same m m' : m_off m = m_off m' -> m_buf m = m_buf m' -> bwf m -> bwf m'.
Proof. unfold bwf, pending. intros -> ->. auto. Qed.
Lemma bwf_creader m c s r : bwf (set_creader m c s r) <-> bwf m. Proof. split; apply bwf_same; reflexivity. Qed.
Lemma bwf_chunks m c : bwf (set_chunks m c) <-> bwf m. Proof. split; apply bwf_same; reflexivity. Qed.
Lemma bwf_head m c : bwf (set_head m c) <-> bwf m. Proof. split; apply bwf_same; reflexivity. Qed.
Lemma bwf_mode m c : bwf (set_mode m c) <-> bwf m. Proof. split; apply bwf_same; reflexivity. Qed.
Lemma bwf_reader m c : bwf (set_reader m c) <-> bwf m. Proof. split; apply bwf_same; reflexivity. Qed.
Lemma split_once_shorter sep s a b : split_once sep s = Some (a, b) -> List.length b < List.length s.
Proof. intro H. apply split_once_some in H as [-> _]. rewrite app_length. cbn. lia. Qed.

Definition chunk_size (line : bytes) : option Z :=
  py_int 16 (match split_once 59 line with Some (a, _) => a | None => line end).
Definition size_read (m : msg) (a : bytes) (n : Z) : msg :=
  let m' := took m (a ++ [LF]) in
  set_creader (set_chunks m' (m_chunks m ++ [(List.length (m_buf m'), n)])) (if Z.eqb n 0 then CTrailer else CChunk) false n.
Lemma chunk_start_eq m s r text : bwf m -> chunk_start m s r text =
  match split_once LF text with
  | Some (a, b) =>
      match chunk_size (pending m ++ a ++ [LF]) with
      | None => if s then Ret None else Raise EValueError
      | Some n => Ret (Some (size_read m a n, b))
      end
  | None => Ret (Some (set_creader (pushed m text) CStart false r, []))
  end.
Proof. intro H. unfold chunk_start. rewrite feed_line_eq by exact H. destruct (split_once LF text) as [[a b]|]; reflexivity. Qed.
Lemma chunk_trailer_eq m s r text : bwf m -> chunk_trailer m s r text =
  match split_once LF text with
  | Some (a, b) =>
      let line := pending m ++ a ++ [LF] in
      bind (add_trailer_line (m_head m) line) (fun h =>
        Ret (set_creader (set_head (took m (a ++ [LF])) h) (if in_list line NEWLINES then CEnd else CTrailer) s r, b))
  | None => Ret (pushed m text, [])
  end.
Proof. intro H. unfold chunk_trailer. rewrite feed_line_eq by exact H. destruct (split_once LF text) as [[a b]|]; reflexivity. Qed.
Lemma took_firstn m text r : (0 < r)%Z -> feed_length m text r =
  ((r - Z.of_nat (List.length (firstn (Z.to_nat r) text)))%Z, skipn (Z.to_nat r) text, took m (firstn (Z.to_nat r) text)).
Proof. reflexivity. Qed.
Lemma took_nil m : m_off m = List.length (m_buf m) -> took m [] = m.
Proof. intro H. unfold took, set_buf. rewrite app_nil_r, <- H. apply msg_eta. Qed.
Lemma pushed_nil m : pushed m [] = m.
Proof. unfold pushed, set_buf. rewrite app_nil_r. apply msg_eta. Qed.
Lemma chunk_chunk_end m s text : bwf m -> chunk_chunk m s 0 text =
  match split_once LF text with
  | Some (a, b) => (set_creader (took m (a ++ [LF])) CStart s 0, b)
  | None => (set_creader (pushed m text) CChunk s 0, [])
  end.
Proof. intro H. unfold chunk_chunk. cbn [Z.ltb Z.compare Z.eqb]. rewrite feed_line_eq by exact H. destruct (split_once LF text) as [[a b]|]; reflexivity. Qed.
Lemma chunk_chunk_short m s r text : (Z.of_nat (List.length text) < r)%Z ->
  chunk_chunk m s r text = (set_creader (took m text) CChunk s (r - Z.of_nat (List.length text)), []).
Proof.
  intro H. unfold chunk_chunk. replace (0 <? r)%Z with true by (symmetry; apply Z.ltb_lt; lia).
  rewrite took_firstn by lia. rewrite firstn_all2, skipn_all2 by lia.
  replace (r - Z.of_nat (List.length text) =? 0)%Z with false by (symmetry; apply Z.eqb_neq; lia). reflexivity.
Qed.
Lemma chunk_chunk_full m s a b : a <> [] ->
  chunk_chunk m s (Z.of_nat (List.length a)) (a ++ b) = chunk_chunk (set_creader (took m a) CChunk s 0) s 0 b.
Proof.
  intro H. unfold chunk_chunk. destruct a as [|c a]; [contradiction|]. set (x := c :: a).
  replace (0 <? Z.of_nat (List.length x))%Z with true by (symmetry; apply Z.ltb_lt; cbn; lia).
  rewrite took_firstn by (cbn; lia). rewrite Nat2Z.id, firstn_app, firstn_all, Nat.sub_diag, skipn_app, skipn_all, Nat.sub_diag.
  cbn [firstn skipn app]. rewrite app_nil_r, Z.sub_diag. cbn [Z.ltb Z.compare Z.eqb].
  rewrite !feed_line_eq by (rewrite ?bwf_creader; apply bwf_took). destruct (split_once LF b) as [[u v]|]; reflexivity.
Qed.
Definition is_chunk (m : msg) : Prop := exists c s r, m_reader m = Some (RChunk c s r).
Definition stuck (m : msg) : Prop := exists s r, m_reader m = Some (RChunk CChunk s r) /\ (r < 0)%Z.
Definition at_cend (m : msg) : Prop := exists s r, m_reader m = Some (RChunk CEnd s r).
(** stages of one pass, after the size line *)
Definition rest_pass (m1 : msg) (text1 : bytes) : outcome (option (msg * bytes)) :=
  let '(m2, text2) :=
    match m_reader m1 with
    | Some (RChunk CChunk st r) =>
        if empty_text text1 then (m1, text1) else chunk_chunk m1 st r text1
    | _ => (m1, text1)
    end in
  match m_reader m2 with
  | Some (RChunk CTrailer st r) =>
      if empty_text text2 then Ret (Some (m2, text2))
      else bind (chunk_trailer m2 st r text2) (fun p => Ret (Some p))
  | _ => Ret (Some (m2, text2))
  end.
Lemma pass_start m s r text : m_reader m = Some (RChunk CStart s r) ->
  chunk_pass m text = bind (chunk_start m s r text) (fun o => match o with None => Ret None | Some (m1, t1) => rest_pass m1 t1 end).
Proof. intro H. unfold chunk_pass. rewrite H. reflexivity. Qed.
Lemma pass_other m c s r text : m_reader m = Some (RChunk c s r) -> c <> CStart -> chunk_pass m text = rest_pass m text.
Proof. intros H Hc. unfold chunk_pass. rewrite H. destruct c; [contradiction|..]; reflexivity. Qed.
Lemma rest_nil m : rest_pass m [] = Ret (Some (m, [])).
Proof. unfold rest_pass. destruct (m_reader m) as [[[] s r|r|z r]|] eqn:E; cbn [empty_text]; rewrite ?E; reflexivity. Qed.

(** shrinking *)
Lemma chunk_chunk_shrinks m s r text : text <> [] -> bwf m ->
  let '(m', t') := chunk_chunk m s r text in
  bwf m' /\ is_chunk m' /\ (forall c' s' r', m_reader m' = Some (RChunk c' s' r') -> c' = CStart \/ c' = CChunk) /\
  (List.length t' < List.length text \/ (m' = set_creader m CChunk s r /\ t' = text /\ (r < 0)%Z)).
Proof.
  intros Ht Hb. destruct (Z_lt_le_dec r 0) as [Hn|Hn].
  - unfold chunk_chunk. replace (0 <? r)%Z with false by (symmetry; apply Z.ltb_ge; lia). cbn iota.
    replace (r =? 0)%Z with false by (symmetry; apply Z.eqb_neq; lia).
    split; [apply bwf_creader; exact Hb|]. split; [eexists _, _, _; reflexivity|]. split; [|right; auto].
    intros c' s' r' E. injection E as <- _ _. auto.
  - assert (H0 : forall m, bwf m -> forall text, let '(m', t') := chunk_chunk m s 0 text in
      bwf m' /\ is_chunk m' /\ (forall c' s' r', m_reader m' = Some (RChunk c' s' r') -> c' = CStart \/ c' = CChunk) /\
      List.length t' <= List.length text /\ (text <> [] -> List.length t' < List.length text)).
    { intros m0 Hb0 t0. rewrite chunk_chunk_end by exact Hb0. destruct (split_once LF t0) as [[a b]|] eqn:E.
      - split; [apply bwf_creader, bwf_took|]. split; [eexists _, _, _; reflexivity|].
        split; [intros ? ? ? E'; injection E' as <- _ _; auto|]. apply split_once_shorter in E. split; intros; lia.
      - split; [apply bwf_creader, bwf_pushed; [exact Hb0|apply split_once_none; exact E]|]. split; [eexists _, _, _; reflexivity|].
        split; [intros ? ? ? E'; injection E' as <- _ _; auto|]. cbn. split; [lia|]. destruct t0; [contradiction|cbn; lia]. }
    destruct (Z.eq_dec r 0) as [->|Hr].
    + specialize (H0 m Hb text). destruct (chunk_chunk m s 0 text). destruct H0 as (A & C & D & E & F). auto 10.
    + destruct (Z_lt_le_dec (Z.of_nat (List.length text)) r) as [Hs|Hs].
      * rewrite chunk_chunk_short by exact Hs. split; [apply bwf_creader, bwf_took|]. split; [eexists _, _, _; reflexivity|].
        split; [intros ? ? ? E'; injection E' as <- _ _; auto|]. left. destruct text; [contradiction|cbn; lia].
      * rewrite <- (firstn_skipn (Z.to_nat r) text). set (a := firstn (Z.to_nat r) text). set (b := skipn (Z.to_nat r) text).
        assert (La : r = Z.of_nat (List.length a)) by (unfold a; rewrite firstn_length; lia). rewrite La.
        assert (Ha : a <> []) by (intro E; rewrite E in La; cbn in La; lia).
        rewrite chunk_chunk_full by exact Ha.
        specialize (H0 (set_creader (took m a) CChunk s 0) (proj2 (bwf_creader _ _ _ _) (bwf_took m a)) b).
        destruct (chunk_chunk _ s 0 b) as [m' t']. destruct H0 as (A & C & D & E & F).
        split; [exact A|]. split; [exact C|]. split; [exact D|]. left. rewrite app_length. destruct a; [contradiction|cbn; lia].
Qed.
Lemma rest_shrinks m text m' t' : bwf m -> is_chunk m -> text <> [] -> rest_pass m text = Ret (Some (m', t')) ->
  (forall s r, m_reader m <> Some (RChunk CStart s r)) ->
  bwf m' /\ is_chunk m' /\ (List.length t' < List.length text \/ (m' = m /\ t' = text /\ (stuck m \/ at_cend m))).
Proof.
  intros Hb (c & s & r & Hr) Ht H Hns. unfold rest_pass in H. rewrite Hr in H. destruct c.
  - exfalso. apply (Hns s r). exact Hr.
  - assert (Ee : empty_text text = false) by (destruct text; [contradiction|reflexivity]). rewrite Ee in H.
    pose proof (chunk_chunk_shrinks m s r text Ht Hb) as P. destruct (chunk_chunk m s r text) as [m2 t2].
    destruct P as (P1 & (c2 & s2 & r2 & P2) & P3 & P4). pose proof (P3 _ _ _ P2) as P5. rewrite P2 in H.
    assert (H' : m' = m2 /\ t' = t2) by (destruct P5 as [->| ->]; injection H as <- <-; auto). destruct H' as [-> ->].
    split; [exact P1|]. split; [exists c2, s2, r2; exact P2|]. destruct P4 as [P4|(-> & -> & P4)]; [auto|]. right.
    assert (Em : set_creader m CChunk s r = m) by (unfold set_creader, set_reader; rewrite <- Hr; apply msg_eta).
    split; [exact Em|]. split; [reflexivity|]. left. exists s, r. auto.
  - rewrite Hr in H. assert (Ee : empty_text text = false) by (destruct text; [contradiction|reflexivity]). rewrite Ee in H.
    rewrite chunk_trailer_eq in H by exact Hb. destruct (split_once LF text) as [[a b]|] eqn:E.
    + cbv zeta in H. destruct (add_trailer_line (m_head m) _) as [h| |]; try discriminate. cbn [bind] in H. injection H as <- <-.
      split; [apply bwf_creader, bwf_head, bwf_took|]. split; [eexists _, _, _; reflexivity|]. left. apply (split_once_shorter _ _ _ _ E).
    + cbn [bind] in H. injection H as <- <-. split; [apply bwf_pushed; [exact Hb|apply split_once_none; exact E]|].
      split; [exists CTrailer, s, r; exact Hr|]. left. destruct text; [contradiction|cbn; lia].
  - rewrite Hr in H. injection H as <- <-. split; [exact Hb|]. split; [exists CEnd, s, r; exact Hr|]. right.
    split; [reflexivity|]. split; [reflexivity|]. right. exists s, r. exact Hr.
Qed.
Lemma pass_shrinks m text m' t' : bwf m -> is_chunk m -> text <> [] -> chunk_pass m text = Ret (Some (m', t')) ->
  bwf m' /\ is_chunk m' /\ (List.length t' < List.length text \/ (m' = m /\ t' = text /\ (stuck m \/ at_cend m))).
Proof.
  intros Hb (c & s & r & Hr) Ht H. destruct (match c with CStart => true | _ => false end) eqn:Ec.
  - destruct c; try discriminate. rewrite (pass_start _ _ _ _ Hr) in H. rewrite chunk_start_eq in H by exact Hb.
    destruct (split_once LF text) as [[a b]|] eqn:E.
    + destruct (chunk_size _) as [n|]; [|destruct s; discriminate]. cbn [bind] in H.
      assert (Hb' : bwf (size_read m a n)) by (apply bwf_creader, bwf_chunks, bwf_took).
      destruct b as [|c b].
      * rewrite rest_nil in H. injection H as <- <-. split; [exact Hb'|]. split; [eexists _, _, _; reflexivity|]. left. destruct text; [contradiction|cbn; lia].
      * destruct (rest_shrinks (size_read m a n) (c :: b) m' t' Hb') as (A & C & D); try assumption.
        { eexists _, _, _. reflexivity. } { discriminate. }
        { intros s' r' X. cbn in X. destruct (n =? 0)%Z; discriminate. }
        split; [exact A|]. split; [exact C|]. apply split_once_shorter in E. destruct D as [D|(-> & -> & _)]; left; lia.
    + cbn [bind] in H. rewrite rest_nil in H. injection H as <- <-.
      split; [apply bwf_creader, bwf_pushed; [exact Hb|apply split_once_none; exact E]|]. split; [eexists _, _, _; reflexivity|].
      left. destruct text; [contradiction|cbn; lia].
  - assert (Hc : c <> CStart) by (intros ->; discriminate). rewrite (pass_other _ _ _ _ _ Hr Hc) in H.
    apply rest_shrinks in H; try assumption; [exists c, s, r; exact Hr|]. intros s' r' X. rewrite Hr in X. injection X as -> _ _. contradiction.
Qed.
Lemma stuck_pass m text : stuck m -> text <> [] -> chunk_pass m text = Ret (Some (m, text)).
Proof.
  intros (s & r & Hr & Hn) Ht. rewrite (pass_other _ _ _ _ _ Hr) by discriminate. unfold rest_pass. rewrite Hr.
  replace (empty_text text) with false by (destruct text; [contradiction|reflexivity]).
  unfold chunk_chunk. replace (0 <? r)%Z with false by (symmetry; apply Z.ltb_ge; lia). cbn iota.
  replace (r =? 0)%Z with false by (symmetry; apply Z.eqb_neq; lia). cbn [m_reader set_creader set_reader].
  do 3 f_equal. unfold set_creader, set_reader. rewrite <- Hr. apply msg_eta.
Qed.
Lemma stuck_feed m text : stuck m -> text <> [] -> forall f, chunk_feed f m text = Diverge.
Proof.
  intros Hs Ht f. induction f as [|f IH]; [reflexivity|]. cbn [chunk_feed]. destruct text as [|c t] eqn:Et; [contradiction|]. rewrite <- Et in *.
  rewrite stuck_pass by assumption. cbn [bind]. destruct Hs as (s & r & -> & _). exact IH.
Qed.
Lemma chunk_fuel n : forall m text f, List.length text <= n -> bwf m -> is_chunk m -> List.length text < f ->
  chunk_feed f m text = chunk_feed (S (List.length text)) m text.
Proof.
  induction n as [|n IH]; intros m text f Hn Hb Hc Hf; (destruct f as [|f]; [lia|]); cbn [chunk_feed].
  - destruct text; [reflexivity|cbn in Hn; lia].
  - destruct text as [|c t] eqn:Et; [reflexivity|]. rewrite <- Et in *. assert (Ht : text <> []) by (rewrite Et; discriminate).
    destruct (chunk_pass m text) as [[[m' t']|]| |] eqn:E; cbn [bind]; try reflexivity.
    destruct (pass_shrinks _ _ _ _ Hb Hc Ht E) as (Hb' & Hc' & [Hl|(-> & -> & [Hs|He])]).
    + destruct (m_reader m') as [[[] s r|r|z r]|]; try reflexivity; rewrite (IH m' t' f), (IH m' t' (List.length text)); try reflexivity; try assumption; lia.
    + rewrite !stuck_feed by assumption. reflexivity.
    + destruct He as (s & r & ->). reflexivity.
Qed.
(** the chunk reader with enough fuel *)
Definition CF (m : msg) (text : bytes) : outcome (option (msg * bytes)) := chunk_feed (S (List.length text)) m text.
Lemma CF_nil m : CF m [] = Ret (Some (m, [])). Proof. reflexivity. Qed.
Lemma CF_pass m text : bwf m -> is_chunk m -> text <> [] -> CF m text =
  bind (chunk_pass m text) (fun o => match o with
    | None => Ret None
    | Some (m', t') => match m_reader m' with
                       | Some (RChunk CEnd _ _) => Ret (Some (set_mode m' End, t'))
                       | _ => CF m' t' end end).
Proof.
  intros Hb Hc Ht. unfold CF at 1. cbn [chunk_feed]. destruct text as [|c t] eqn:Et; [contradiction|]. rewrite <- Et in *. clear Et.
  destruct (chunk_pass m text) as [[[m' t']|]| |] eqn:E; cbn [bind]; try reflexivity.
  destruct (pass_shrinks _ _ _ _ Hb Hc Ht E) as (Hb' & Hc' & [Hl|(-> & -> & [Hs|He])]).
  - destruct (m_reader m') as [[[] s r|r|z r]|]; try reflexivity; apply (chunk_fuel (List.length t')); auto; lia.
  - unfold CF. rewrite !stuck_feed by assumption. reflexivity.
  - destruct He as (s & r & ->). reflexivity.
Qed.
Lemma CF_stuck m text : stuck m -> text <> [] -> CF m text = Diverge.
Proof. intros. apply stuck_feed; assumption. Qed.
(** a pass may be entered at any stage *)
Lemma rest_then m text : bwf m -> is_chunk m -> (forall s r, m_reader m <> Some (RChunk CStart s r)) -> ~ at_cend m ->
  bind (rest_pass m text) (fun o => match o with
    | None => Ret None
    | Some (m', t') => match m_reader m' with
                       | Some (RChunk CEnd _ _) => Ret (Some (set_mode m' End, t'))
                       | _ => CF m' t' end end) = CF m text.
Proof.
  intros Hb Hc Hns Hce. destruct Hc as (c & s & r & Hr). destruct text as [|x t] eqn:Et.
  - rewrite rest_nil, CF_nil. cbn [bind]. rewrite Hr. destruct c; try reflexivity. exfalso. apply Hce. exists s, r. exact Hr.
  - rewrite CF_pass; [|exact Hb|exists c, s, r; exact Hr|discriminate].
    rewrite (pass_other _ _ _ _ _ Hr); [reflexivity|]. intros ->. apply (Hns s r). exact Hr.
Qed.
Lemma CF_start m s r text : bwf m -> m_reader m = Some (RChunk CStart s r) -> text <> [] -> CF m text =
  match split_once LF text with
  | Some (a, b) =>
      match chunk_size (pending m ++ a ++ [LF]) with
      | None => if s then Ret None else Raise EValueError
      | Some n => CF (size_read m a n) b
      end
  | None => Ret (Some (set_creader (pushed m text) CStart false r, []))
  end.
Proof.
  intros Hb Hr Ht. rewrite CF_pass; [|exact Hb|eexists _, _, _; exact Hr|exact Ht]. rewrite (pass_start _ _ _ _ Hr), chunk_start_eq by exact Hb.
  destruct (split_once LF text) as [[a b]|] eqn:E.
  - destruct (chunk_size _) as [n|]; [|destruct s; reflexivity]. cbn [bind]. apply rest_then.
    + apply bwf_creader, bwf_chunks, bwf_took.
    + eexists _, _, _. reflexivity.
    + intros s' r' X. cbn in X. destruct (n =? 0)%Z; discriminate.
    + intros (s' & r' & X). cbn in X. destruct (n =? 0)%Z; discriminate.
  - cbn [bind]. rewrite rest_nil. reflexivity.
Qed.
Lemma CF_chunk_end m s text : bwf m -> m_reader m = Some (RChunk CChunk s 0) -> text <> [] -> CF m text =
  match split_once LF text with
  | Some (a, b) => CF (set_creader (took m (a ++ [LF])) CStart s 0) b
  | None => Ret (Some (set_creader (pushed m text) CChunk s 0, []))
  end.
Proof.
  intros Hb Hr Ht. rewrite CF_pass; [|exact Hb|eexists _, _, _; exact Hr|exact Ht]. rewrite (pass_other _ _ _ _ _ Hr) by discriminate.
  unfold rest_pass. rewrite Hr. replace (empty_text text) with false by (destruct text; [contradiction|reflexivity]).
  rewrite chunk_chunk_end by exact Hb. destruct (split_once LF text) as [[a b]|] eqn:E; reflexivity.
Qed.
Lemma CF_chunk_short m s r text : bwf m -> m_reader m = Some (RChunk CChunk s r) -> text <> [] -> (Z.of_nat (List.length text) < r)%Z ->
  CF m text = Ret (Some (set_creader (took m text) CChunk s (r - Z.of_nat (List.length text)), [])).
Proof.
  intros Hb Hr Ht Hl. rewrite CF_pass; [|exact Hb|eexists _, _, _; exact Hr|exact Ht]. rewrite (pass_other _ _ _ _ _ Hr) by discriminate.
  unfold rest_pass. rewrite Hr. replace (empty_text text) with false by (destruct text; [contradiction|reflexivity]).
  rewrite chunk_chunk_short by exact Hl. reflexivity.
Qed.
Lemma CF_chunk_full m s a b : bwf m -> m_reader m = Some (RChunk CChunk s (Z.of_nat (List.length a))) -> a <> [] ->
  CF m (a ++ b) = CF (set_creader (took m a) CChunk s 0) b.
Proof.
  intros Hb Hr Ha. assert (Ht : a ++ b <> []) by (destruct a; [contradiction|discriminate]).
  rewrite CF_pass; [|exact Hb|eexists _, _, _; exact Hr|exact Ht]. rewrite (pass_other _ _ _ _ _ Hr) by discriminate.
  unfold rest_pass. rewrite Hr. replace (empty_text (a ++ b)) with false by (destruct a; [contradiction|reflexivity]).
  rewrite chunk_chunk_full by exact Ha. set (m1 := set_creader (took m a) CChunk s 0).
  assert (Hb1 : bwf m1) by (apply bwf_creader, bwf_took).
  destruct b as [|c b'] eqn:Eb.
  - rewrite chunk_chunk_end by exact Hb1. cbn [split_once]. rewrite pushed_nil. cbn [m_reader set_creader set_reader bind]. rewrite CF_nil. reflexivity.
  - rewrite <- Eb. rewrite (CF_chunk_end m1 s b Hb1 eq_refl) by (rewrite Eb; discriminate). rewrite chunk_chunk_end by exact Hb1.
    destruct (split_once LF b) as [[u v]|]; reflexivity.
Qed.
Lemma CF_trailer m s r text : bwf m -> m_reader m = Some (RChunk CTrailer s r) -> text <> [] -> CF m text =
  match split_once LF text with
  | Some (a, b) =>
      let line := pending m ++ a ++ [LF] in
      bind (add_trailer_line (m_head m) line) (fun h =>
        let m' := set_head (took m (a ++ [LF])) h in
        if in_list line NEWLINES then Ret (Some (set_mode (set_creader m' CEnd s r) End, b))
        else CF (set_creader m' CTrailer s r) b)
  | None => Ret (Some (pushed m text, []))
  end.
Proof.
  intros Hb Hr Ht. rewrite CF_pass; [|exact Hb|eexists _, _, _; exact Hr|exact Ht]. rewrite (pass_other _ _ _ _ _ Hr) by discriminate.
  unfold rest_pass. rewrite Hr. rewrite Hr. replace (empty_text text) with false by (destruct text; [contradiction|reflexivity]).
  rewrite chunk_trailer_eq by exact Hb. destruct (split_once LF text) as [[a b]|] eqn:E.
  - cbv zeta. destruct (add_trailer_line (m_head m) _) as [h| |]; try reflexivity. cbn [bind].
    destruct (in_list _ NEWLINES); reflexivity.
  - cbn [bind]. change (m_reader (pushed m text)) with (m_reader m). rewrite Hr, CF_nil. reflexivity.
Qed.

(** ** start line and headers *)
Lemma headers_fuel n : forall m text f, List.length text <= n -> bwf m -> List.length text < f ->
  feed_headers f m text = feed_headers (S (List.length text)) m text.
Proof.
  induction n as [|n IH]; intros m text f Hn Hb Hf; (destruct f as [|f]; [lia|]); cbn [feed_headers].
  - destruct text; [reflexivity|cbn in Hn; lia].
  - destruct text as [|c t] eqn:Et; [reflexivity|]. rewrite <- Et in *. rewrite feed_line_eq by exact Hb.
    destruct (split_once LF text) as [[a b]|] eqn:E.
    + apply split_once_shorter in E. destruct (add_header_line _ _) as [h| |]; cbn [bind]; try reflexivity. destruct (in_list _ NEWLINES); [reflexivity|].
      assert (Hb' : bwf (set_head (took m (a ++ [LF])) h)) by apply bwf_head, bwf_took.
      rewrite (IH _ b f), (IH _ b (List.length text)); try reflexivity; try assumption; lia.
    + destruct f; [rewrite Et in Hf; cbn in Hf; lia|]. rewrite Et. reflexivity.
Qed.
Definition HF (m : msg) (text : bytes) : outcome (msg * bytes) := feed_headers (S (List.length text)) m text.
Lemma HF_line m text : bwf m -> text <> [] -> HF m text =
  match split_once LF text with
  | Some (a, b) =>
      let line := pending m ++ a ++ [LF] in
      bind (add_header_line (m_head m) line) (fun h =>
        let m' := set_head (took m (a ++ [LF])) h in
        if in_list line NEWLINES then Ret (set_mode m' Body, b) else HF m' b)
  | None => Ret (pushed m text, [])
  end.
Proof.
  intros Hb Ht. unfold HF at 1. cbn [feed_headers]. destruct text as [|c t] eqn:Et; [contradiction|]. rewrite <- Et in *.
  rewrite feed_line_eq by exact Hb. destruct (split_once LF text) as [[a b]|] eqn:E.
  - apply split_once_shorter in E. change (m_head (took m (a ++ [LF]))) with (m_head m).
    cbv zeta. destruct (add_header_line _ _) as [h| |]; cbn [bind]; try reflexivity. destruct (in_list _ NEWLINES); [reflexivity|].
    apply (headers_fuel (List.length b)); [lia|apply bwf_head, bwf_took|exact E].
  - rewrite Et. reflexivity.
Qed.
Section G.
Variable gz : bytes -> outcome bytes.
Lemma BF_nil m : base_feed gz m [] = Ret (m, []).
Proof. unfold base_feed. destruct (m_mode m) eqn:E; cbn [empty_text bind]; rewrite ?E; cbn [empty_text bind]; rewrite ?E; reflexivity. Qed.
Lemma BF_done m text : m_mode m = End \/ m_mode m = Incomplete -> base_feed gz m text = Ret (m, text).
Proof. unfold base_feed. intros [E|E]; rewrite E; cbn [bind]; rewrite E; cbn [bind]; rewrite E; reflexivity. Qed.
Lemma BF_body m text : m_mode m = Body -> text <> [] -> base_feed gz m text = feed_body m text.
Proof. intros E Ht. unfold base_feed. rewrite E; cbn [bind]; rewrite E; cbn [bind]; rewrite E. destruct text; [contradiction|reflexivity]. Qed.
Lemma HF_mode m text m' t : m_mode m = Headers -> bwf m -> HF m text = Ret (m', t) -> m_mode m' = Body \/ (m_mode m' = Headers /\ t = []).
Proof.
  assert (G : forall f m text m' t, m_mode m = Headers -> bwf m -> feed_headers f m text = Ret (m', t) -> m_mode m' = Body \/ (m_mode m' = Headers /\ t = [])).
  { induction f as [|f IH]; intros m0 text0 m1 t1 Hm Hb H; [discriminate|]. cbn [feed_headers] in H. destruct text0 as [|c x] eqn:Et; [injection H as <- <-; auto|]. rewrite <- Et in *.
    rewrite feed_line_eq in H by exact Hb. destruct (split_once LF text0) as [[a b]|] eqn:E.
    - destruct (add_header_line _ _) as [h| |]; cbn [bind] in H; try discriminate. destruct (in_list _ NEWLINES); [injection H as <- <-; auto|].
      apply IH in H; [exact H|exact Hm|apply bwf_head, bwf_took].
    - apply IH in H; [exact H|exact Hm|apply bwf_pushed; [exact Hb|apply split_once_none; exact E]]. }
  apply G.
Qed.
Lemma begin_body_mode m text m' : m_mode m = Body -> begin_body gz m text = Ret m' -> m_mode m' = Body \/ m_mode m' = End.
Proof.
  unfold begin_body. intro Hm. destruct (negb (has_body (m_head m))); [intro H; injection H as <-; auto|].
  destruct (body_is_chunked (m_head m)); [intro H; injection H as <-; auto|].
  destruct (body_length (m_head m)); [|intro H; injection H as <-; auto].
  match goal with |- bind ?x _ = _ -> _ => destruct x as [rd| |] end; try discriminate. cbn [bind]. intro H. injection H as <-.
  destruct (reader_remaining rd =? 0)%Z; auto.
Qed.
Lemma BF_headers_HF m text : m_mode m = Headers -> bwf m -> text <> [] -> base_feed gz m text =
  bind (HF m text) (fun p => match m_mode (fst p) with
    | Body => bind (begin_body gz (fst p) (snd p)) (fun m2 => base_feed gz m2 (snd p))
    | _ => Ret p end).
Proof.
  intros Hm Hb Ht. unfold base_feed at 1. rewrite Hm. cbn [bind]. rewrite Hm. replace (empty_text text) with false by (destruct text; [contradiction|reflexivity]).
  fold (HF m text). destruct (HF m text) as [[m' t']| |] eqn:E; cbn [bind]; try reflexivity. cbn [fst snd].
  destruct (HF_mode _ _ _ _ Hm Hb E) as [Hm'|[Hm' ->]]; rewrite Hm'.
  - destruct (begin_body gz m' t') as [m2| |] eqn:E2; cbn [bind]; try reflexivity.
    destruct (begin_body_mode _ _ _ Hm' E2) as [H2|H2]; rewrite H2.
    + destruct t' as [|c t']; [rewrite BF_nil; reflexivity|]. rewrite BF_body by (try exact H2; discriminate). reflexivity.
    + rewrite BF_done by auto. reflexivity.
  - cbn [bind]. rewrite Hm'. reflexivity.
Qed.
Lemma BF_headers m text : m_mode m = Headers -> bwf m -> text <> [] -> base_feed gz m text =
  match split_once LF text with
  | Some (a, b) =>
      let line := pending m ++ a ++ [LF] in
      bind (add_header_line (m_head m) line) (fun h =>
        let m' := set_head (took m (a ++ [LF])) h in
        if in_list line NEWLINES then bind (begin_body gz (set_mode m' Body) b) (fun m2 => base_feed gz m2 b)
        else base_feed gz m' b)
  | None => Ret (pushed m text, [])
  end.
Proof.
  intros Hm Hb Ht. rewrite BF_headers_HF by assumption. rewrite HF_line by assumption.
  destruct (split_once LF text) as [[a b]|] eqn:E.
  - cbv zeta. destruct (add_header_line _ _) as [h| |]; cbn [bind]; try reflexivity. destruct (in_list _ NEWLINES); [reflexivity|].
    set (m' := set_head (took m (a ++ [LF])) h). assert (Hb' : bwf m') by apply bwf_head, bwf_took.
    destruct b as [|c b]; [unfold HF; cbn [feed_headers bind fst]; rewrite BF_nil; change (m_mode m') with (m_mode m); rewrite Hm; reflexivity|].
    rewrite <- BF_headers_HF; [reflexivity|exact Hm|exact Hb'|discriminate].
  - cbn [bind fst]. change (m_mode (pushed m text)) with (m_mode m). rewrite Hm. reflexivity.
Qed.
Lemma BF_start m text : m_mode m = Start -> bwf m -> text <> [] -> base_feed gz m text =
  match split_once LF text with
  | Some (a, b) =>
      let line := pending m ++ a ++ [LF] in
      if in_list line NEWLINES then Ret (took m (a ++ [LF]), b)
      else bind (set_start_line (m_head m) line) (fun h => base_feed gz (set_mode (set_head (took m (a ++ [LF])) h) Headers) b)
  | None => Ret (pushed m text, [])
  end.
Proof.
  intros Hm Hb Ht. unfold base_feed at 1. rewrite Hm. replace (empty_text text) with false by (destruct text; [contradiction|reflexivity]).
  unfold feed_start. rewrite feed_line_eq by exact Hb. destruct (split_once LF text) as [[a b]|] eqn:E.
  - cbv zeta. destruct (in_list _ NEWLINES).
    + cbn [bind]. change (m_mode (took m (a ++ [LF]))) with (m_mode m). rewrite Hm. cbn [bind]. change (m_mode (took m (a ++ [LF]))) with (m_mode m). rewrite Hm. reflexivity.
    + change (m_head (took m (a ++ [LF]))) with (m_head m). destruct (set_start_line _ _) as [h| |]; cbn [bind]; reflexivity.
  - cbn [bind]. change (m_mode (pushed m text)) with (m_mode m). rewrite Hm. cbn [bind]. change (m_mode (pushed m text)) with (m_mode m). rewrite Hm. reflexivity.
Qed.
End G.
