(** A parser that already holds earlier bytes behaves like a new one. *)
From Verif Require Import RegexFacts.
From Verif Require Export HttpBody.
From Coq Require Import String List Lia ZArith.
Open Scope list_scope.

(** the parser [m] with [b] in front of its buffer and [ints] in front of its interim
    responses *)
Definition shift (b : bytes) (ints : list hdr) (m : msg) : msg :=
  mkmsg (b ++ m_buf m) (List.length b + m_off m) (m_head m)
        (map (fun e => (List.length b + fst e, snd e)) (m_chunks m)) (m_mode m) (m_reader m) (ints ++ m_interim m).
Section S.
Variables (b : bytes) (ints : list hdr).
Notation sh := (shift b ints).
Definition shp (p : msg * bytes) : msg * bytes := (sh (fst p), snd p).
Definition sho (o : option (msg * bytes)) : option (msg * bytes) := match o with Some p => Some (shp p) | None => None end.
Lemma skipn_shift {A} (x y : list A) n : skipn (List.length x + n) (x ++ y) = skipn n y.
Proof. rewrite skipn_app, skipn_all2 by lia. replace (List.length x + n - List.length x) with n by lia. reflexivity. Qed.
Lemma firstn_shift {A} (x y : list A) n : firstn (List.length x + n) (x ++ y) = x ++ firstn n y.
Proof. rewrite firstn_app, firstn_all2 by lia. replace (List.length x + n - List.length x) with n by lia. reflexivity. Qed.
Lemma sh_line m text : feed_line (sh m) text = (let '(l, t, m') := feed_line m text in (l, t, sh m')).
Proof.
  unfold feed_line, find_from. cbn [shift m_buf m_off]. rewrite <- app_assoc, skipn_shift.
  destruct (find_byte LF (skipn (m_off m) (m_buf m ++ text))) as [n|]; [|reflexivity].
  replace (S (List.length b + m_off m + n)) with (List.length b + S (m_off m + n)) by lia.
  rewrite firstn_shift, !skipn_shift, app_length. reflexivity.
Qed.
Lemma sh_length m text r : feed_length (sh m) text r = (let '(r', t, m') := feed_length m text r in (r', t, sh m')).
Proof. unfold feed_length. cbn [shift m_buf]. rewrite <- app_assoc, app_length. reflexivity. Qed.
Lemma sh_start m text : feed_start (sh m) text = omap shp (feed_start m text).
Proof.
  unfold feed_start. rewrite sh_line. destruct (feed_line m text) as [[[l|] t] m']; [|reflexivity].
  destruct (in_list l NEWLINES); [reflexivity|]. cbn [shift m_head]. destruct (set_start_line _ l); reflexivity.
Qed.
Lemma sh_headers f : forall m text, feed_headers f (sh m) text = omap shp (feed_headers f m text).
Proof.
  induction f as [|f IH]; intros m text; [reflexivity|]. cbn [feed_headers]. destruct text as [|c t]; [reflexivity|].
  rewrite sh_line. destruct (feed_line m (c :: t)) as [[[l|] t'] m']; [|apply IH]. cbn [shift m_head].
  destruct (add_header_line (m_head m') l) as [h| |]; [|reflexivity|reflexivity]. cbn [bind].
  destruct (in_list l NEWLINES); [reflexivity|]. exact (IH (set_head m' h) t').
Qed.
Lemma sh_chunk_start m s r text : chunk_start (sh m) s r text = omap sho (chunk_start m s r text).
Proof.
  unfold chunk_start. rewrite sh_line. destruct (feed_line m text) as [[[l|] t] m']; [|reflexivity].
  destruct (py_int 16 _) as [n|]; [|destruct s; reflexivity]. cbn [omap sho]. unfold shp. cbn [fst snd].
  unfold set_creader, set_reader, set_chunks, shift. cbn [m_buf m_off m_head m_chunks m_mode m_reader m_interim]. rewrite map_app, app_length. reflexivity.
Qed.
Lemma sh_chunk_chunk m s r text : chunk_chunk (sh m) s r text = shp (chunk_chunk m s r text).
Proof.
  unfold chunk_chunk. rewrite sh_length. destruct (0 <? r)%Z.
  - destruct (feed_length m text r) as [[r' t] m']. destruct (r' =? 0)%Z; [|reflexivity].
    rewrite sh_line. destruct (feed_line m' t) as [[[l|] t'] m'']; reflexivity.
  - destruct (r =? 0)%Z; [|reflexivity]. rewrite sh_line. destruct (feed_line m text) as [[[l|] t'] m'']; reflexivity.
Qed.
Lemma sh_chunk_trailer m s r text : chunk_trailer (sh m) s r text = omap shp (chunk_trailer m s r text).
Proof.
  unfold chunk_trailer. rewrite sh_line. destruct (feed_line m text) as [[[l|] t] m']; [|reflexivity].
  cbn [shift m_head]. destruct (add_trailer_line (m_head m') l); reflexivity.
Qed.
Lemma sh_pass m text : chunk_pass (sh m) text = omap sho (chunk_pass m text).
Proof.
  unfold chunk_pass. change (m_reader (sh m)) with (m_reader m).
  assert (E : forall o, bind (omap sho o) (fun o => match o with
     | None => Ret None
     | Some (m1, text1) => let '(m2, text2) := match m_reader m1 with
        | Some (RChunk CChunk st r) => if empty_text text1 then (m1, text1) else chunk_chunk m1 st r text1
        | _ => (m1, text1) end in
      match m_reader m2 with
      | Some (RChunk CTrailer st r) => if empty_text text2 then Ret (Some (m2, text2)) else bind (chunk_trailer m2 st r text2) (fun p => Ret (Some p))
      | _ => Ret (Some (m2, text2)) end end) =
     omap sho (bind o (fun o => match o with
     | None => Ret None
     | Some (m1, text1) => let '(m2, text2) := match m_reader m1 with
        | Some (RChunk CChunk st r) => if empty_text text1 then (m1, text1) else chunk_chunk m1 st r text1
        | _ => (m1, text1) end in
      match m_reader m2 with
      | Some (RChunk CTrailer st r) => if empty_text text2 then Ret (Some (m2, text2)) else bind (chunk_trailer m2 st r text2) (fun p => Ret (Some p))
      | _ => Ret (Some (m2, text2)) end end))).
  { intros [[[m1 t1]|]| |]; try reflexivity. cbn [omap sho shp fst snd bind]. change (m_reader (sh m1)) with (m_reader m1).
    assert (T : forall m2 t2, match m_reader (sh m2) with
      | Some (RChunk CTrailer st r) => if empty_text t2 then Ret (Some (sh m2, t2)) else bind (chunk_trailer (sh m2) st r t2) (fun p => Ret (Some p))
      | _ => Ret (Some (sh m2, t2)) end = omap sho (match m_reader m2 with
      | Some (RChunk CTrailer st r) => if empty_text t2 then Ret (Some (m2, t2)) else bind (chunk_trailer m2 st r t2) (fun p => Ret (Some p))
      | _ => Ret (Some (m2, t2)) end)).
    { intros m2 t2. change (m_reader (sh m2)) with (m_reader m2). destruct (m_reader m2) as [[[] s r|r|z r]|]; try reflexivity.
      destruct (empty_text t2); [reflexivity|]. rewrite sh_chunk_trailer. destruct (chunk_trailer m2 s r t2); reflexivity. }
    destruct (m_reader m1) as [[[] s r|r|z r]|]; try apply T.
    destruct (empty_text t1); [apply T|]. rewrite sh_chunk_chunk. destruct (chunk_chunk m1 s r t1) as [m2 t2]. apply T. }
  rewrite <- E. destruct (m_reader m) as [[[] s r|r|z r]|]; try reflexivity. rewrite sh_chunk_start. reflexivity.
Qed.
Lemma sh_chunk_feed f : forall m text, chunk_feed f (sh m) text = omap sho (chunk_feed f m text).
Proof.
  induction f as [|f IH]; intros m text; [reflexivity|]. cbn [chunk_feed]. destruct text as [|c t]; [reflexivity|].
  rewrite sh_pass. destruct (chunk_pass m (c :: t)) as [[[m' t']|]| |]; try reflexivity. cbn [omap sho shp fst snd bind].
  change (m_reader (sh m')) with (m_reader m'). destruct (m_reader m') as [[[] s r|r|z r]|]; try reflexivity; apply IH.
Qed.
Lemma sh_raw m text : raw_body (sh m) text = omap shp (raw_body m text).
Proof.
  unfold raw_body. cbn [shift m_chunks]. destruct (m_chunks m) as [|[o n] [|e t]]; try reflexivity. cbn [map fst snd omap shp].
  do 2 f_equal. unfold set_chunks, set_buf, shift. cbn [m_buf m_off m_head m_chunks m_mode m_reader m_interim map fst snd]. rewrite <- !app_assoc, !app_length. reflexivity.
Qed.
Lemma sh_body m text : feed_body (sh m) text = omap shp (feed_body m text).
Proof.
  unfold feed_body. change (m_reader (sh m)) with (m_reader m). destruct (m_reader m) as [[c s r|r|z r]|].
  - rewrite sh_chunk_feed. destruct (chunk_feed _ m text) as [[[m' t']|]| |]; try reflexivity. cbn [omap sho shp fst snd bind].
    rewrite <- sh_raw. f_equal. unfold set_chunks, set_reader, shift. cbn [m_buf m_off m_head m_chunks m_mode m_reader m_interim map fst snd]. rewrite app_length. reflexivity.
  - unfold length_feed. rewrite sh_length. destruct (0 <? r)%Z.
    + destruct (feed_length m text r) as [[r' t] m']. destruct (r' <=? 0)%Z; reflexivity.
    + destruct (r <=? 0)%Z; reflexivity.
  - unfold zip_feed. rewrite sh_length. destruct (0 <? r)%Z.
    + destruct (feed_length m _ r) as [[r' t] m']. destruct (r' <=? 0)%Z; reflexivity.
    + destruct (r <=? 0)%Z; reflexivity.
  - apply sh_raw.
Qed.
Variable gz : bytes -> outcome bytes.
Lemma sh_begin m text : begin_body gz (sh m) text = omap sh (begin_body gz m text).
Proof.
  unfold begin_body. cbn [shift m_head]. destruct (has_body (m_head m)); [|reflexivity]. cbn [negb].
  destruct (body_is_chunked _); [reflexivity|]. destruct (body_length _) as [n|]; [|reflexivity].
  set (g := match h_encoding (m_head m) with Some e => endswith (B "gzip") e | None => false end).
  destruct (if g then zip_reader gz n text else Ret (RLength n)) as [r| |]; try reflexivity. cbn [bind]. destruct (reader_remaining r =? 0)%Z; reflexivity.
Qed.
Theorem base_feed_shift m text : base_feed gz (sh m) text = omap shp (base_feed gz m text).
Proof.
  unfold base_feed. change (m_mode (sh m)) with (m_mode m).
  assert (C : forall p2 : msg * bytes, (let '(m2, t2) := shp p2 in match m_mode m2 with Body => if empty_text t2 then Ret (m2, t2) else feed_body m2 t2 | _ => Ret (m2, t2) end) =
    omap shp (let '(m2, t2) := p2 in match m_mode m2 with Body => if empty_text t2 then Ret (m2, t2) else feed_body m2 t2 | _ => Ret (m2, t2) end)).
  { intros [m2 t2]. cbn [shp fst snd]. change (m_mode (sh m2)) with (m_mode m2). destruct (m_mode m2); try reflexivity. destruct (empty_text t2); [reflexivity|apply sh_body]. }
  assert (D : forall p1 : msg * bytes,
    (let '(m1, t1) := shp p1 in bind (match m_mode m1 with Headers => if empty_text t1 then Ret (m1, t1) else bind (feed_headers (S (List.length t1)) m1 t1) (fun p => let '(m', t') := p in
        match m_mode m' with Body => bind (begin_body gz m' t') (fun m2 => Ret (m2, t')) | _ => Ret (m', t') end) | _ => Ret (m1, t1) end)
      (fun p2 => let '(m2, t2) := p2 in match m_mode m2 with Body => if empty_text t2 then Ret (m2, t2) else feed_body m2 t2 | _ => Ret (m2, t2) end)) =
    omap shp (let '(m1, t1) := p1 in bind (match m_mode m1 with Headers => if empty_text t1 then Ret (m1, t1) else bind (feed_headers (S (List.length t1)) m1 t1) (fun p => let '(m', t') := p in
        match m_mode m' with Body => bind (begin_body gz m' t') (fun m2 => Ret (m2, t')) | _ => Ret (m', t') end) | _ => Ret (m1, t1) end)
      (fun p2 => let '(m2, t2) := p2 in match m_mode m2 with Body => if empty_text t2 then Ret (m2, t2) else feed_body m2 t2 | _ => Ret (m2, t2) end))).
  { intros [m1 t1]. cbn [shp fst snd]. change (m_mode (sh m1)) with (m_mode m1). destruct (m_mode m1) eqn:E1; try exact (C (m1, t1)).
    destruct (empty_text t1); [exact (C (m1, t1))|]. rewrite sh_headers. destruct (feed_headers _ m1 t1) as [[m' t']| |]; try reflexivity. cbn [omap shp fst snd bind].
    change (m_mode (sh m')) with (m_mode m'). destruct (m_mode m') eqn:E2; try exact (C (m', t')).
    rewrite sh_begin. destruct (begin_body gz m' t') as [m2| |]; try reflexivity. cbn [omap bind]. exact (C (m2, t')). }
  destruct (m_mode m); try exact (D (m, text)). destruct (empty_text text); [exact (D (m, text))|].
  rewrite sh_start. destruct (feed_start m text) as [p| |]; try reflexivity. cbn [omap bind]. exact (D p).
Qed.
End S.
Lemma shift_complete b ints m : complete (shift b ints m) = complete m. Proof. reflexivity. Qed.
Lemma shift_message b ints m : get_message (shift b ints m) = b ++ get_message m. Proof. reflexivity. Qed.
Lemma shift_body b ints m : Forall (fun e => (0 <= snd e)%Z) (m_chunks m) -> get_body (shift b ints m) = get_body m.
Proof.
  unfold get_body, shift. cbn [m_chunks m_buf]. intro H. induction H as [|[o n] l Hn Hl IH]; [reflexivity|]. cbn [map concat fst snd]. f_equal; [|exact IH].
  cbn [snd] in Hn. unfold slice. replace (_ <? 0)%Z with false by lia. replace (Z.of_nat o + n <? 0)%Z with false by lia.
  rewrite skipn_shift. f_equal. lia.
Qed.
