(** The parser with the state after exceptions agrees with [Http.v]. *)
From Verif Require Export HttpRaise PropsHttp HttpTidy.
From Coq Require Import String List Lia.
Open Scope list_scope.

(** forgetting the state of a call that did not return *)
Definition plain {A B} (x : outcome A * B) : outcome (B * A) :=
  match x with (Ret a, b) => Ret (b, a) | (Raise e, _) => Raise e | (Diverge, _) => Diverge end.
(** the same for [option]: [None] is BrokenChunks *)
Definition plain_o (x : outcome (option bytes) * msg) : outcome (option (msg * bytes)) :=
  match x with (Ret (Some t), m) => Ret (Some (m, t)) | (Ret None, _) => Ret None | (Raise e, _) => Raise e | (Diverge, _) => Diverge end.

Lemma x_start_plain m text : plain (x_start m text) = feed_start m text.
Proof.
  unfold x_start, feed_start. destruct (feed_line m text) as [[[l|] t] m']; [|reflexivity]. destruct (in_list l NEWLINES); [reflexivity|].
  destruct (set_start_line (m_head m') l); reflexivity.
Qed.
Lemma x_headers_plain f : forall m text, plain (x_headers f m text) = feed_headers f m text.
Proof.
  induction f as [|f IH]; intros m text; [reflexivity|]. cbn [x_headers feed_headers]. destruct text as [|c text]; [reflexivity|].
  destruct (feed_line m (c :: text)) as [[[l|] t] m']; [|apply IH]. unfold x_header_line.
  destruct (add_header_line (m_head m') l) as [h| |]; cbn [bind]; try reflexivity. destruct (in_list l NEWLINES); [reflexivity|apply IH].
Qed.
Lemma x_chunk_start_plain m s r text : plain_o (x_chunk_start m s r text) = chunk_start m s r text.
Proof.
  unfold x_chunk_start, chunk_start. destruct (feed_line m text) as [[[l|] t] m']; [|reflexivity].
  destruct (py_int 16 _); [reflexivity|]. destruct s; reflexivity.
Qed.
Lemma x_trailer_plain m s r text : plain (x_trailer m s r text) = chunk_trailer m s r text.
Proof.
  unfold x_trailer, chunk_trailer. destruct (feed_line m text) as [[[l|] t] m']; [|reflexivity]. unfold x_trailer_line.
  destruct (add_trailer_line (m_head m') l); reflexivity.
Qed.
Lemma x_pass_plain m text : plain_o (x_pass m text) = chunk_pass m text.
Proof.
  unfold x_pass, chunk_pass.
  set (x := match m_reader m with Some (RChunk CStart st r) => x_chunk_start m st r text | _ => (Ret (Some text), m) end).
  set (y := match m_reader m with Some (RChunk CStart st r) => chunk_start m st r text | _ => Ret (Some (m, text)) end).
  assert (E : y = plain_o x).
  { unfold x, y. destruct (m_reader m) as [[[] ? ?| |]|]; try reflexivity. symmetry. apply x_chunk_start_plain. }
  rewrite E. clearbody x y. destruct x as [[[t1|]|e|] m1]; try reflexivity. cbn [plain_o bind].
  destruct (match m_reader m1 with Some (RChunk CChunk st r) => _ | _ => _ end) as [m2 t2].
  destruct (m_reader m2) as [[[] s r| |]|]; try reflexivity. destruct (empty_text t2); [reflexivity|].
  rewrite <- x_trailer_plain. destruct (x_trailer m2 s r t2) as [[t|e|] m3]; reflexivity.
Qed.
Lemma x_chunks_plain f : forall m text, plain_o (x_chunks f m text) = chunk_feed f m text.
Proof.
  induction f as [|f IH]; intros m text; [reflexivity|]. cbn [x_chunks chunk_feed]. destruct text as [|c text]; [reflexivity|].
  rewrite <- x_pass_plain. destruct (x_pass m (c :: text)) as [[[t|]|e|] m']; try reflexivity. cbn [plain_o bind].
  destruct (m_reader m') as [[[] s r| |]|]; try reflexivity; apply IH.
Qed.
Lemma x_raw_plain m text : plain (x_raw m text) = raw_body m text.
Proof. unfold x_raw, raw_body. destruct (m_chunks m) as [|[o n] [|? ?]]; reflexivity. Qed.
(** BrokenChunks comes from the first size line only, with the buffer as it was *)
Lemma x_pass_broken m text m' : x_pass m text = (Ret None, m') -> m' = set_buf m (m_buf m) (List.length (m_buf m)) /\ exists r, m_reader m = Some (RChunk CStart true r).
Proof.
  unfold x_pass. intro H.
  destruct (match m_reader m with Some (RChunk CStart st r) => x_chunk_start m st r text | _ => (Ret (Some text), m) end) as [[[t1|]|e|] m1] eqn:E; try discriminate.
  - exfalso. destruct (match m_reader m1 with Some (RChunk CChunk st r) => _ | _ => _ end) as [m2 t2].
    destruct (m_reader m2) as [[[] s r| |]|]; try discriminate. destruct (empty_text t2); [discriminate|]. destruct (x_trailer m2 s r t2) as [[t|e|] m3]; discriminate.
  - injection H as <-. destruct (m_reader m) as [[[] s r| |]|] eqn:Er; try discriminate. unfold x_chunk_start in E.
    destruct (feed_line m text) as [[[l|] t] m2] eqn:El; [|discriminate]. destruct (py_int 16 _); [discriminate|]. destruct s; [|discriminate].
    injection E as <-. apply feed_line_keeps in El as (A & B & C & D & F). split; [|eauto]. unfold set_buf. rewrite A, B, C, D, F. reflexivity.
Qed.

(** ** the chunk reader, line by line *)
Lemma x_pass_ret m text t m' : x_pass m text = (Ret (Some t), m') -> chunk_pass m text = Ret (Some (m', t)).
Proof. intro H. rewrite <- x_pass_plain, H. reflexivity. Qed.
Lemma x_stuck m text : stuck m -> text <> [] -> x_pass m text = (Ret (Some text), m) /\ forall f, x_chunks f m text = (Diverge, m).
Proof.
  intros Hs Ht. pose proof (stuck_pass m text Hs Ht) as H. rewrite <- x_pass_plain in H.
  destruct (x_pass m text) as [[[t|]|e|] m'] eqn:E; try discriminate. injection H as -> ->. split; [reflexivity|].
  induction f as [|f IH]; [reflexivity|]. cbn [x_chunks]. destruct text as [|c t0] eqn:Et; [contradiction|]. rewrite <- Et in *. rewrite E.
  destruct Hs as (s & r & -> & _). exact IH.
Qed.
Lemma x_fuel n : forall m text f, List.length text <= n -> bwf m -> is_chunk m -> List.length text < f ->
  x_chunks f m text = x_chunks (S (List.length text)) m text.
Proof.
  induction n as [|n IH]; intros m text f Hn Hb Hc Hf; (destruct f as [|f]; [lia|]); cbn [x_chunks].
  - destruct text; [reflexivity|cbn in Hn; lia].
  - destruct text as [|c t] eqn:Et; [reflexivity|]. rewrite <- Et in *. assert (Ht : text <> []) by (rewrite Et; discriminate).
    destruct (x_pass m text) as [[[t'|]|e|] m'] eqn:E; try reflexivity. apply x_pass_ret in E.
    destruct (pass_shrinks _ _ _ _ Hb Hc Ht E) as (Hb' & Hc' & [Hl|(-> & -> & [Hs|He])]).
    + destruct (m_reader m') as [[[] s r|r|z r]|]; try reflexivity; rewrite (IH m' t' f), (IH m' t' (List.length text)); try reflexivity; try assumption; lia.
    + destruct (x_stuck m text Hs Ht) as [_ X]. rewrite !X. reflexivity.
    + destruct He as (s & r & ->). reflexivity.
Qed.
Definition XF (m : msg) (text : bytes) : outcome (option bytes) * msg := x_chunks (S (List.length text)) m text.
Definition x_then (x : outcome (option bytes) * msg) : outcome (option bytes) * msg :=
  match x with
  | (Ret (Some t'), m') => match m_reader m' with
                           | Some (RChunk CEnd _ _) => (Ret (Some t'), set_mode m' End)
                           | _ => XF m' t' end
  | x => x
  end.
Lemma XF_pass m text : bwf m -> is_chunk m -> text <> [] -> XF m text = x_then (x_pass m text).
Proof.
  intros Hb Hc Ht. unfold XF at 1. cbn [x_chunks]. destruct text as [|c t] eqn:Et; [contradiction|]. rewrite <- Et in *. clear Et.
  destruct (x_pass m text) as [[[t'|]|e|] m'] eqn:E; try reflexivity. apply x_pass_ret in E. unfold x_then.
  destruct (pass_shrinks _ _ _ _ Hb Hc Ht E) as (Hb' & Hc' & [Hl|(-> & -> & [Hs|He])]).
  - destruct (m_reader m') as [[[] s r|r|z r]|]; try reflexivity; apply (x_fuel (List.length t')); auto; lia.
  - unfold XF. destruct (x_stuck m text Hs Ht) as [_ X]. rewrite !X. reflexivity.
  - destruct He as (s & r & ->). reflexivity.
Qed.
Definition x_rest (m1 : msg) (text1 : bytes) : outcome (option bytes) * msg :=
  let '(m2, text2) :=
    match m_reader m1 with
    | Some (RChunk CChunk st r) => if empty_text text1 then (m1, text1) else chunk_chunk m1 st r text1
    | _ => (m1, text1)
    end in
  match m_reader m2 with
  | Some (RChunk CTrailer st r) =>
      if empty_text text2 then (Ret (Some text2), m2)
      else match x_trailer m2 st r text2 with
           | (Ret t, m3) => (Ret (Some t), m3)
           | (Raise e, m3) => (Raise e, m3)
           | (Diverge, m3) => (Diverge, m3)
           end
  | _ => (Ret (Some text2), m2)
  end.
Lemma x_rest_nil m : x_rest m [] = (Ret (Some []), m).
Proof. unfold x_rest. destruct (m_reader m) as [[[] s r|r|z r]|] eqn:E; cbn [empty_text]; rewrite ?E; reflexivity. Qed.
Lemma x_pass_start m s r text : m_reader m = Some (RChunk CStart s r) ->
  x_pass m text = match x_chunk_start m s r text with
                  | (Ret (Some t1), m1) => x_rest m1 t1
                  | x => x end.
Proof. intro H. unfold x_pass. rewrite H. destruct (x_chunk_start m s r text) as [[[t|]|e|] m1]; reflexivity. Qed.
Lemma x_pass_other m c s r text : m_reader m = Some (RChunk c s r) -> c <> CStart -> x_pass m text = x_rest m text.
Proof. intros H Hc. unfold x_pass. rewrite H. destruct c; [contradiction|..]; reflexivity. Qed.
Lemma x_rest_then m text : bwf m -> is_chunk m -> (forall s r, m_reader m <> Some (RChunk CStart s r)) -> ~ at_cend m ->
  x_then (x_rest m text) = XF m text.
Proof.
  intros Hb Hc Hns Hce. destruct Hc as (c & s & r & Hr). destruct text as [|x t] eqn:Et.
  - rewrite x_rest_nil. cbn [x_then]. rewrite Hr. destruct c; try reflexivity. exfalso. apply Hce. exists s, r. exact Hr.
  - rewrite XF_pass; [|exact Hb|exists c, s, r; exact Hr|discriminate].
    rewrite (x_pass_other _ _ _ _ _ Hr); [reflexivity|]. intros ->. apply (Hns s r). exact Hr.
Qed.
Lemma XF_start m s r text : bwf m -> m_reader m = Some (RChunk CStart s r) -> text <> [] -> XF m text =
  match split_once LF text with
  | Some (a, b) =>
      match chunk_size (pending m ++ a ++ [LF]) with
      | None => if s then (Ret None, set_buf m (m_buf m) (List.length (m_buf m))) else (Raise EValueError, took m (a ++ [LF]))
      | Some n => XF (size_read m a n) b
      end
  | None => (Ret (Some []), set_creader (pushed m text) CStart false r)
  end.
Proof.
  intros Hb Hr Ht. rewrite XF_pass; [|exact Hb|eexists _, _, _; exact Hr|exact Ht]. rewrite (x_pass_start _ _ _ _ Hr).
  unfold x_chunk_start. rewrite feed_line_eq by exact Hb. destruct (split_once LF text) as [[a b]|] eqn:E.
  - fold (chunk_size (pending m ++ a ++ [LF])). destruct (chunk_size _) as [n|]; [|destruct s; reflexivity]. apply x_rest_then.
    + apply bwf_creader, bwf_chunks, bwf_took.
    + eexists _, _, _. reflexivity.
    + intros s' r' X. cbn in X. destruct (n =? 0)%Z; discriminate.
    + intros (s' & r' & X). cbn in X. destruct (n =? 0)%Z; discriminate.
  - rewrite x_rest_nil. reflexivity.
Qed.
Lemma XF_chunk_end m s text : bwf m -> m_reader m = Some (RChunk CChunk s 0) -> text <> [] -> XF m text =
  match split_once LF text with
  | Some (a, b) => XF (set_creader (took m (a ++ [LF])) CStart s 0) b
  | None => (Ret (Some []), set_creader (pushed m text) CChunk s 0)
  end.
Proof.
  intros Hb Hr Ht. rewrite XF_pass; [|exact Hb|eexists _, _, _; exact Hr|exact Ht]. rewrite (x_pass_other _ _ _ _ _ Hr) by discriminate.
  unfold x_rest. rewrite Hr. replace (empty_text text) with false by (destruct text; [contradiction|reflexivity]).
  rewrite chunk_chunk_end by exact Hb. destruct (split_once LF text) as [[a b]|] eqn:E; reflexivity.
Qed.
Lemma XF_chunk_short m s r text : bwf m -> m_reader m = Some (RChunk CChunk s r) -> text <> [] -> (Z.of_nat (List.length text) < r)%Z ->
  XF m text = (Ret (Some []), set_creader (took m text) CChunk s (r - Z.of_nat (List.length text))).
Proof.
  intros Hb Hr Ht Hl. rewrite XF_pass; [|exact Hb|eexists _, _, _; exact Hr|exact Ht]. rewrite (x_pass_other _ _ _ _ _ Hr) by discriminate.
  unfold x_rest. rewrite Hr. replace (empty_text text) with false by (destruct text; [contradiction|reflexivity]).
  rewrite chunk_chunk_short by exact Hl. reflexivity.
Qed.
Lemma XF_chunk_full m s a b : bwf m -> m_reader m = Some (RChunk CChunk s (Z.of_nat (List.length a))) -> a <> [] ->
  XF m (a ++ b) = XF (set_creader (took m a) CChunk s 0) b.
Proof.
  intros Hb Hr Ha. assert (Ht : a ++ b <> []) by (destruct a; [contradiction|discriminate]).
  rewrite XF_pass; [|exact Hb|eexists _, _, _; exact Hr|exact Ht]. rewrite (x_pass_other _ _ _ _ _ Hr) by discriminate.
  unfold x_rest. rewrite Hr. replace (empty_text (a ++ b)) with false by (destruct a; [contradiction|reflexivity]).
  rewrite chunk_chunk_full by exact Ha. set (m1 := set_creader (took m a) CChunk s 0).
  assert (Hb1 : bwf m1) by (apply bwf_creader, bwf_took).
  destruct b as [|c b'] eqn:Eb.
  - rewrite chunk_chunk_end by exact Hb1. cbn [split_once]. rewrite pushed_nil. reflexivity.
  - rewrite <- Eb. rewrite (XF_chunk_end m1 s b Hb1 eq_refl) by (rewrite Eb; discriminate). rewrite chunk_chunk_end by exact Hb1.
    destruct (split_once LF b) as [[u v]|]; reflexivity.
Qed.
Lemma XF_trailer m s r text : bwf m -> m_reader m = Some (RChunk CTrailer s r) -> text <> [] -> XF m text =
  match split_once LF text with
  | Some (a, b) =>
      let line := pending m ++ a ++ [LF] in
      match add_trailer_line (m_head m) line with
      | Ret h => let m' := set_head (took m (a ++ [LF])) h in
                 if in_list line NEWLINES then (Ret (Some b), set_mode (set_creader m' CEnd s r) End)
                 else XF (set_creader m' CTrailer s r) b
      | Raise e => (Raise e, took m (a ++ [LF]))
      | Diverge => (Diverge, took m (a ++ [LF]))
      end
  | None => (Ret (Some []), pushed m text)
  end.
Proof.
  intros Hb Hr Ht. rewrite XF_pass; [|exact Hb|eexists _, _, _; exact Hr|exact Ht]. rewrite (x_pass_other _ _ _ _ _ Hr) by discriminate.
  unfold x_rest. rewrite Hr. rewrite Hr. replace (empty_text text) with false by (destruct text; [contradiction|reflexivity]).
  unfold x_trailer. rewrite feed_line_eq by exact Hb. destruct (split_once LF text) as [[a b]|] eqn:E.
  - cbv zeta. unfold x_trailer_line. change (m_head (took m (a ++ [LF]))) with (m_head m). destruct (add_trailer_line (m_head m) _) as [h| |]; try reflexivity.
    destruct (in_list _ NEWLINES); reflexivity.
  - cbn [x_then]. change (m_reader (pushed m text)) with (m_reader m). rewrite Hr. reflexivity.
Qed.
(** BrokenChunks, whole call *)
Lemma XF_broken m text m' : hinv m -> is_chunk m -> XF m text = (Ret None, m') ->
  m' = set_buf m (m_buf m) (List.length (m_buf m)).
Proof.
  intros (Hb & _ & Hc & _) (c & s & r & Hr) H. destruct (Hc _ _ _ Hr) as [_ Hcs].
  assert (Ht : text <> []) by (intros ->; discriminate). destruct Hcs as [-> | ->].
  - rewrite (XF_start m s r text Hb Hr Ht) in H. destruct (split_once LF text) as [[a b]|]; [|discriminate].
    destruct (chunk_size _) as [n|].
    + exfalso. apply (CF_not_none (size_read m a n) b); [eexists _, _; reflexivity|apply bwf_creader, bwf_chunks, bwf_took|].
      unfold CF. rewrite <- x_chunks_plain. fold (XF (size_read m a n) b). rewrite H. reflexivity.
    + destruct s; [|discriminate]. injection H as <-. reflexivity.
  - exfalso. apply (CF_not_none m text); [eauto|exact Hb|]. unfold CF. rewrite <- x_chunks_plain. fold (XF m text). rewrite H. reflexivity.
Qed.
Lemma x_body_plain m text : hinv m -> plain (x_body m text) = feed_body m text.
Proof.
  intro Hi. unfold x_body, feed_body. destruct (m_reader m) as [[c s r|r|z r]|] eqn:Hr.
  - fold (XF m text). rewrite <- x_chunks_plain. fold (XF m text). destruct (XF m text) as [[[t|]|e|] m'] eqn:E; cbn [plain_o bind]; try reflexivity.
    rewrite (XF_broken m text m' Hi ltac:(exists c, s, r; exact Hr) E). rewrite x_raw_plain. reflexivity.
  - destruct (length_feed m r text); reflexivity.
  - destruct (zip_feed m z r text); reflexivity.
  - apply x_raw_plain.
Qed.

(** ** start line and headers *)
Lemma x_headers_fuel n : forall m text f, List.length text <= n -> bwf m -> List.length text < f ->
  x_headers f m text = x_headers (S (List.length text)) m text.
Proof.
  induction n as [|n IH]; intros m text f Hn Hb Hf; (destruct f as [|f]; [lia|]); cbn [x_headers].
  - destruct text; [reflexivity|cbn in Hn; lia].
  - destruct text as [|c t] eqn:Et; [reflexivity|]. rewrite <- Et in *. rewrite feed_line_eq by exact Hb.
    destruct (split_once LF text) as [[a b]|] eqn:E.
    + apply split_once_shorter in E. destruct (x_header_line _ _) as [[u|e|] h]; try reflexivity. destruct (in_list _ NEWLINES); [reflexivity|].
      assert (Hb' : bwf (set_head (took m (a ++ [LF])) h)) by apply bwf_head, bwf_took.
      rewrite (IH _ b f), (IH _ b (List.length text)); try reflexivity; try assumption; lia.
    + destruct f; [rewrite Et in Hf; cbn in Hf; lia|]. rewrite Et. reflexivity.
Qed.
Definition XH (m : msg) (text : bytes) : outcome bytes * msg := x_headers (S (List.length text)) m text.
Lemma XH_line m text : bwf m -> text <> [] -> XH m text =
  match split_once LF text with
  | Some (a, b) =>
      let line := pending m ++ a ++ [LF] in
      match x_header_line (m_head m) line with
      | (Ret _, h) =>
          let m' := set_head (took m (a ++ [LF])) h in
          if in_list line NEWLINES then (Ret b, set_mode m' Body) else XH m' b
      | (Raise e, h) => (Raise e, set_head (took m (a ++ [LF])) h)
      | (Diverge, h) => (Diverge, set_head (took m (a ++ [LF])) h)
      end
  | None => (Ret [], pushed m text)
  end.
Proof.
  intros Hb Ht. unfold XH at 1. cbn [x_headers]. destruct text as [|c t] eqn:Et; [contradiction|]. rewrite <- Et in *.
  rewrite feed_line_eq by exact Hb. destruct (split_once LF text) as [[a b]|] eqn:E.
  - apply split_once_shorter in E. change (m_head (took m (a ++ [LF]))) with (m_head m).
    cbv zeta. destruct (x_header_line _ _) as [[u|e|] h]; try reflexivity. destruct (in_list _ NEWLINES); [reflexivity|].
    apply (x_headers_fuel (List.length b)); [lia|apply bwf_head, bwf_took|exact E].
  - rewrite Et. reflexivity.
Qed.
Lemma XH_plain m text : plain (XH m text) = HF m text. Proof. apply x_headers_plain. Qed.

Section G.
Variable gz : bytes -> outcome bytes.
Lemma x_begin_eq m text : plain (x_begin gz m text) = omap (fun m' => (m', tt)) (begin_body gz m text).
Proof. unfold x_begin. destruct (begin_body gz m text); reflexivity. Qed.
Lemma XB_nil m : x_base gz m [] = (Ret [], m).
Proof. unfold x_base. destruct (m_mode m) eqn:E; cbn [empty_text]; rewrite ?E; cbn [empty_text]; rewrite ?E; reflexivity. Qed.
Lemma XB_done m text : m_mode m = End \/ m_mode m = Incomplete -> x_base gz m text = (Ret text, m).
Proof. unfold x_base. intros [E|E]; rewrite !E; reflexivity. Qed.
Lemma XB_body m text : m_mode m = Body -> text <> [] -> x_base gz m text = x_body m text.
Proof. intros E Ht. unfold x_base. rewrite !E. destruct text; [contradiction|reflexivity]. Qed.
Lemma reader_none_inv m : bwf m -> m_reader m = None -> inv m.
Proof. intros Hb Hr. split; [|intros (z & r & X); congruence]. split; [exact Hb|]. split; [auto|]. split; [intros c s r X; congruence|]. intro X; contradiction. Qed.
(** carrying on after a step that returned *)
Definition x_on (x : outcome unit * msg) (b : bytes) : outcome bytes * msg :=
  match x with (Ret _, m2) => x_base gz m2 b | (Raise e, m2) => (Raise e, m2) | (Diverge, m2) => (Diverge, m2) end.
Lemma XB_headers_XH m text : m_mode m = Headers -> bwf m -> text <> [] -> x_base gz m text =
  match XH m text with
  | (Ret t, m') => match m_mode m' with Body => x_on (x_begin gz m' t) t | _ => (Ret t, m') end
  | (Raise e, m') => (Raise e, m')
  | (Diverge, m') => (Diverge, m')
  end.
Proof.
  intros Hm Hb Ht. unfold x_base at 1. rewrite !Hm. replace (empty_text text) with false by (destruct text; [contradiction|reflexivity]).
  fold (XH m text). pose proof (XH_plain m text) as P. destruct (XH m text) as [[t'| |] m'] eqn:E; try reflexivity. cbn [plain] in P. symmetry in P.
  destruct (HF_mode _ _ _ _ Hm Hb P) as [Hm'|[Hm' ->]]; rewrite Hm'.
  - unfold x_begin. destruct (begin_body gz m' t') as [m2| |] eqn:E2; cbn [x_on]; try reflexivity.
    destruct (begin_body_mode _ _ _ _ Hm' E2) as [H2|H2]; rewrite H2.
    + destruct t' as [|c t']; [rewrite XB_nil; reflexivity|]. rewrite XB_body by (try exact H2; discriminate). reflexivity.
    + rewrite XB_done by auto. reflexivity.
  - rewrite Hm'. reflexivity.
Qed.
Lemma XB_headers m text : m_mode m = Headers -> bwf m -> text <> [] -> x_base gz m text =
  match split_once LF text with
  | Some (a, b) =>
      let line := pending m ++ a ++ [LF] in
      match x_header_line (m_head m) line with
      | (Ret _, h) =>
          let m' := set_head (took m (a ++ [LF])) h in
          if in_list line NEWLINES then x_on (x_begin gz (set_mode m' Body) b) b
          else x_base gz m' b
      | (Raise e, h) => (Raise e, set_head (took m (a ++ [LF])) h)
      | (Diverge, h) => (Diverge, set_head (took m (a ++ [LF])) h)
      end
  | None => (Ret [], pushed m text)
  end.
Proof.
  intros Hm Hb Ht. rewrite XB_headers_XH by assumption. rewrite XH_line by assumption.
  destruct (split_once LF text) as [[a b]|] eqn:E.
  - cbv zeta. destruct (x_header_line _ _) as [[u|e|] h]; try reflexivity. destruct (in_list _ NEWLINES); [reflexivity|].
    set (m' := set_head (took m (a ++ [LF])) h). assert (Hb' : bwf m') by apply bwf_head, bwf_took.
    destruct b as [|c b]; [unfold XH; cbn [x_headers]; rewrite XB_nil; change (m_mode m') with (m_mode m); rewrite Hm; reflexivity|].
    rewrite <- XB_headers_XH; [reflexivity|exact Hm|exact Hb'|discriminate].
  - change (m_mode (pushed m text)) with (m_mode m). rewrite Hm. reflexivity.
Qed.
Lemma XB_start m text : m_mode m = Start -> bwf m -> text <> [] -> x_base gz m text =
  match split_once LF text with
  | Some (a, b) =>
      let line := pending m ++ a ++ [LF] in
      if in_list line NEWLINES then (Ret b, took m (a ++ [LF]))
      else match set_start_line (m_head m) line with
           | Ret h => x_base gz (set_mode (set_head (took m (a ++ [LF])) h) Headers) b
           | Raise e => (Raise e, took m (a ++ [LF]))
           | Diverge => (Diverge, took m (a ++ [LF]))
           end
  | None => (Ret [], pushed m text)
  end.
Proof.
  intros Hm Hb Ht. unfold x_base at 1. rewrite Hm. replace (empty_text text) with false by (destruct text; [contradiction|reflexivity]).
  unfold x_start. rewrite feed_line_eq by exact Hb. destruct (split_once LF text) as [[a b]|] eqn:E.
  - cbv zeta. destruct (in_list _ NEWLINES).
    + change (m_mode (took m (a ++ [LF]))) with (m_mode m). rewrite Hm. change (m_mode (took m (a ++ [LF]))) with (m_mode m). rewrite Hm. reflexivity.
    + change (m_head (took m (a ++ [LF]))) with (m_head m). destruct (set_start_line _ _) as [h| |]; reflexivity.
  - change (m_mode (pushed m text)) with (m_mode m). rewrite Hm. change (m_mode (pushed m text)) with (m_mode m). rewrite Hm. reflexivity.
Qed.

(** ** both parsers agree *)
Lemma x_base_plain_n n : forall m text, List.length text <= n -> inv m -> plain (x_base gz m text) = base_feed gz m text.
Proof.
  induction n as [|n IH]; intros m text Hn Hi.
  - destruct text; [|cbn in Hn; lia]. rewrite XB_nil, BF_nil. reflexivity.
  - destruct text as [|c0 t0] eqn:Et; [rewrite XB_nil, BF_nil; reflexivity|]. assert (Ht : text <> []) by (rewrite Et; discriminate). rewrite <- Et in *. clear Et.
    pose proof Hi as [[Hb [Hr _]] _]. destruct (m_mode m) eqn:Hm.
    + rewrite (XB_start m text Hm Hb Ht), (BF_start gz m text Hm Hb Ht). destruct (split_once LF text) as [[a b]|] eqn:E; [|reflexivity].
      cbv zeta. destruct (in_list _ NEWLINES); [reflexivity|]. destruct (set_start_line (m_head m) _) as [h| |] eqn:Eh; try reflexivity. cbn [bind].
      apply IH; [apply split_once_shorter in E; lia|].
      apply reader_none_inv; [apply bwf_mode, bwf_head, bwf_took|apply Hr; auto].
    + rewrite (XB_headers m text Hm Hb Ht), (BF_headers gz m text Hm Hb Ht). destruct (split_once LF text) as [[a b]|] eqn:E; [|reflexivity].
      apply split_once_shorter in E.
      cbv zeta. unfold x_header_line. destruct (add_header_line (m_head m) _) as [h| |] eqn:Eh; try reflexivity. cbn [bind].
      destruct (in_list _ NEWLINES).
      * unfold x_begin. destruct (begin_body gz _ b) as [m2| |] eqn:E2; cbn [x_on bind]; try reflexivity. apply IH; [lia|].
        apply (begin_body_inv gz) in E2; [exact E2|apply bwf_mode, bwf_head, bwf_took|apply Hr; auto|reflexivity].
      * apply IH; [lia|]. apply reader_none_inv; [apply bwf_head, bwf_took|apply Hr; auto].
    + rewrite XB_body, BF_body by assumption. apply x_body_plain. apply Hi.
    + rewrite XB_done, BF_done by auto. reflexivity.
    + rewrite XB_done, BF_done by auto. reflexivity.
Qed.
Theorem x_base_plain m text : inv m -> plain (x_base gz m text) = base_feed gz m text.
Proof. apply (x_base_plain_n (List.length text)). lia. Qed.
Definition x_resp (p : msg * bytes) : outcome bytes * msg :=
  if continue_dec (fst p) then x_base gz (after_continue (fst p)) (snd p) else (Ret (snd p), fst p).
Lemma x_feed_resp m text : inv m -> x_feed gz m text =
  match x_base gz m text with (Ret t, m1) => x_resp (m1, t) | x => x end.
Proof.
  intro Hi. pose proof (x_base_plain m text Hi) as P. unfold x_feed. destruct (x_base gz m text) as [[t|e|] m1] eqn:E.
  - cbn [plain] in P. symmetry in P. pose proof (base_feed_cls gz m text m1 t P) as Hc. unfold x_resp. cbn [fst snd].
    destruct (h_kind (m_head m)) as [? ? ? ?|rm v c ph] eqn:Hk.
    + destruct (continue_dec m1) as [[_ C]|C]; [|reflexivity]. exfalso. unfold cls in Hc. rewrite Hk in Hc. unfold status in C. destruct (h_kind (m_head m1)); discriminate.
    + unfold cls in Hc. rewrite Hk in Hc. destruct (h_kind (m_head m1)) as [? ? ? ?|rm1 v1 c1 ph1] eqn:Hk1; [discriminate|].
      destruct (continue_dec m1) as [[C1 C2]|C].
      * unfold status in C2. rewrite Hk1 in C2. injection C2 as ->. rewrite C1. cbn [andb Z.eqb]. unfold after_continue. rewrite Hk1. reflexivity.
      * destruct (complete m1 && (c1 =? 100)%Z) eqn:X; [|reflexivity]. exfalso. apply C. apply andb_prop in X as [X Y]. split; [exact X|]. unfold status. rewrite Hk1. apply Z.eqb_eq in Y. subst. reflexivity.
  - destruct (h_kind (m_head m)); reflexivity.
  - destruct (h_kind (m_head m)); reflexivity.
Qed.
Theorem x_feed_plain m text : inv m -> plain (x_feed gz m text) = feed gz m text.
Proof.
  intro Hi. rewrite x_feed_resp by exact Hi. rewrite feed_resp. rewrite <- (x_base_plain m text Hi). destruct (x_base gz m text) as [[t|e|] m1] eqn:E; try reflexivity.
  cbn [plain bind]. unfold x_resp, resp. cbn [fst snd]. destruct (continue_dec m1) as [C|C]; [|reflexivity]. apply x_base_plain.
  assert (P : base_feed gz m text = Ret (m1, t)) by (rewrite <- x_base_plain by exact Hi; rewrite E; reflexivity).
  apply after_inv; [|exact C]. apply base_feed_inv in P; [|exact Hi]. apply P.
Qed.

(** ** where a call raises *)
(** the line that is refused; the head then is [h'] *)
Definition refuses_line (m : msg) (line : bytes) (e : exn) (h' : hdr) : Prop :=
  (m_mode m = Start /\ in_list line NEWLINES = false /\ set_start_line (m_head m) line = Raise e /\ h' = m_head m) \/
  (m_mode m = Headers /\ x_header_line (m_head m) line = (Raise e, h')) \/
  (m_mode m = Body /\ (exists r, m_reader m = Some (RChunk CStart false r)) /\ chunk_size line = None /\ e = EValueError /\ h' = m_head m) \/
  (m_mode m = Body /\ (exists s r, m_reader m = Some (RChunk CTrailer s r)) /\ add_trailer_line (m_head m) line = Raise e /\ h' = m_head m).
Definition at_line (m : msg) (text : bytes) (e : exn) (m' : msg) : Prop :=
  exists a lost m1 h', text = a ++ LF :: lost /\ base_feed gz m a = Ret (m1, []) /\ bwf m1 /\
    refuses_line m1 (pending m1 ++ [LF]) e h' /\ m' = set_head (took m1 [LF]) h'.
Lemma lf_parts text a b : split_once LF text = Some (a, b) -> text = a ++ LF :: b /\ no_lf' a /\ List.length b < List.length text /\ (forall x, split_once LF (a ++ LF :: x) = Some (a, x)) /\ split_once LF a = None.
Proof.
  intro E. destruct (split_once_parts _ _ _ _ E) as [A C]. split; [exact A|]. split; [exact C|]. split; [eapply split_once_shorter, E|]. split.
  - intro x. apply split_once_hit. exact C.
  - apply split_once_none. exact C.
Qed.
Lemma pushed_line m a : bwf m -> no_lf' a -> bwf (pushed m a) /\ pending (pushed m a) ++ [LF] = pending m ++ a ++ [LF] /\ took (pushed m a) [LF] = took m (a ++ [LF]).
Proof.
  intros Hb Ha. split; [apply bwf_pushed; assumption|]. split.
  - rewrite pending_pushed by apply Hb. rewrite <- app_assoc. reflexivity.
  - unfold took, pushed, set_buf. cbn [m_buf]. rewrite <- !app_assoc. reflexivity.
Qed.
Lemma cons_app (a : bytes) c b x : (a ++ c :: b) ++ x = a ++ c :: (b ++ x).
Proof. rewrite <- app_assoc. reflexivity. Qed.
Lemma mid_nonempty (a : bytes) c b : a ++ c :: b <> []. Proof. destruct a; discriminate. Qed.
Lemma flag_false m c r : m_reader m = Some (RChunk c false r) -> flag_ok m.
Proof. intro H. exists c, false, r. auto. Qed.
Lemma XF_raise n : forall m text e m', List.length text <= n -> bwf m -> flag_ok m -> m_mode m = Body -> XF m text = (Raise e, m') ->
  exists a lost m1, text = a ++ LF :: lost /\ CF m a = Ret (Some (m1, [])) /\ bwf m1 /\ m_mode m1 = Body /\
    refuses_line m1 (pending m1 ++ [LF]) e (m_head m1) /\ m' = took m1 [LF].
Proof.
  induction n as [|n IH]; intros m text e m' Hn Hb Hf Hm H.
  - destruct text; [discriminate|cbn in Hn; lia].
  - assert (Ht : text <> []) by (intros ->; discriminate). destruct Hf as (c & s & r & Hr & Hcs).
    (** a line that was taken: carry on behind it *)
    assert (Go : forall a b m2, split_once LF text = Some (a, b) -> bwf m2 -> flag_ok m2 -> m_mode m2 = Body -> (forall x, CF m (a ++ LF :: x) = CF m2 x) -> XF m2 b = (Raise e, m') ->
       exists a lost m1, text = a ++ LF :: lost /\ CF m a = Ret (Some (m1, [])) /\ bwf m1 /\ m_mode m1 = Body /\ refuses_line m1 (pending m1 ++ [LF]) e (m_head m1) /\ m' = took m1 [LF]).
    { intros a b m2 E B2 F2 M2 Hcf X. destruct (lf_parts _ _ _ E) as (T & _ & Hl & _ & _). apply IH in X; auto; [|lia].
      destruct X as (a2 & lost & m1 & T2 & C2 & K). exists (a ++ LF :: a2), lost, m1. split; [rewrite cons_app; rewrite T, T2; reflexivity|]. split; [rewrite Hcf; exact C2|exact K]. }
    destruct c.
    + rewrite (XF_start m s r text Hb Hr Ht) in H. destruct (split_once LF text) as [[a b]|] eqn:E; [|discriminate].
      destruct (lf_parts _ _ _ E) as (T & Na & Hl & Hx & Hn').
      destruct (chunk_size (pending m ++ a ++ [LF])) as [k|] eqn:Ek.
      * apply (Go a b (size_read m a k)); auto.
        -- apply bwf_creader, bwf_chunks, bwf_took.
        -- eapply flag_false. reflexivity.
        -- intro x. rewrite (CF_start m s r (a ++ LF :: x) Hb Hr (mid_nonempty _ _ _)), Hx, Ek. reflexivity.
      * destruct s; [discriminate|]. injection H as <- <-. destruct (pushed_line m a Hb Na) as (P1 & P2 & P3).
        exists a, b, (pushed m a). split; [exact T|]. split.
        { destruct a as [|c0 a0] eqn:Ea; [rewrite pushed_nil; reflexivity|]. rewrite <- Ea in *. rewrite (CF_start m false r a Hb Hr) by (rewrite Ea; discriminate). rewrite Hn'.
          replace (set_creader (pushed m a) CStart false r) with (pushed m a); [reflexivity|]. symmetry. apply creader_eta. exact Hr. }
        split; [exact P1|]. split; [exact Hm|]. split; [|rewrite P3; reflexivity]. right. right. left. rewrite P2. split; [exact Hm|]. split; [exists r; exact Hr|]. auto.
    + destruct Hcs as [Hcs| ->]; [discriminate|]. destruct (Z.compare_spec r 0) as [-> | Hlt | Hgt].
      * rewrite (XF_chunk_end m false text Hb Hr Ht) in H. destruct (split_once LF text) as [[a b]|] eqn:E; [|discriminate].
        destruct (lf_parts _ _ _ E) as (T & Na & Hl & Hx & Hn'). apply (Go a b (set_creader (took m (a ++ [LF])) CStart false 0)); auto.
        -- apply bwf_creader, bwf_took.
        -- eapply flag_false. reflexivity.
        -- intro x. rewrite (CF_chunk_end m false (a ++ LF :: x) Hb Hr (mid_nonempty _ _ _)), Hx. reflexivity.
      * exfalso. destruct (x_stuck m text) as [_ X]; [exists false, r; auto|exact Ht|]. unfold XF in H. rewrite X in H. discriminate.
      * destruct (Z_lt_le_dec (Z.of_nat (List.length text)) r) as [Hs|Hs]; [rewrite (XF_chunk_short m false r text Hb Hr Ht Hs) in H; discriminate|].
        set (k := Z.to_nat r). assert (Hk : k <= List.length text) by (unfold k; lia). assert (Hk0 : k <> 0) by (unfold k; lia).
        assert (T : text = firstn k text ++ skipn k text) by (symmetry; apply firstn_skipn).
        assert (Lk : List.length (firstn k text) = k) by (rewrite firstn_length; lia).
        assert (Hr' : m_reader m = Some (RChunk CChunk false (Z.of_nat (List.length (firstn k text))))) by (rewrite Hr, Lk; unfold k; rewrite Z2Nat.id by lia; reflexivity).
        assert (Hne : firstn k text <> []) by (intro X; rewrite X in Lk; cbn in Lk; lia).
        rewrite T in H. rewrite (XF_chunk_full m false (firstn k text) (skipn k text) Hb Hr' Hne) in H.
        apply IH in H; [|rewrite skipn_length; lia|apply bwf_creader, bwf_took|eapply flag_false; reflexivity|exact Hm].
        destruct H as (a2 & lost & m1 & T2 & C2 & K). exists (firstn k text ++ a2), lost, m1. split; [rewrite <- app_assoc, <- T2; exact T|]. split; [|exact K].
        rewrite (CF_chunk_full m false (firstn k text) a2 Hb Hr' Hne). exact C2.
    + rewrite (XF_trailer m s r text Hb Hr Ht) in H. destruct Hcs as [Hcs| ->]; [discriminate|].
      destruct (split_once LF text) as [[a b]|] eqn:E; [|discriminate].
      destruct (lf_parts _ _ _ E) as (T & Na & Hl & Hx & Hn'). cbv zeta in H. destruct (add_trailer_line (m_head m) (pending m ++ a ++ [LF])) as [h|e0|] eqn:Eh; try discriminate.
      * destruct (in_list (pending m ++ a ++ [LF]) NEWLINES) eqn:En; [discriminate|]. apply (Go a b (set_creader (set_head (took m (a ++ [LF])) h) CTrailer false r)); auto.
        -- apply bwf_creader, bwf_head, bwf_took.
        -- eapply flag_false. reflexivity.
        -- intro x. rewrite (CF_trailer m false r (a ++ LF :: x) Hb Hr (mid_nonempty _ _ _)), Hx. cbv zeta. rewrite Eh. cbn [bind]. rewrite En. reflexivity.
      * injection H as <- <-. destruct (pushed_line m a Hb Na) as (P1 & P2 & P3).
        exists a, b, (pushed m a). split; [exact T|]. split.
        { destruct a as [|c0 a0] eqn:Ea; [rewrite pushed_nil; reflexivity|]. rewrite <- Ea in *. rewrite (CF_trailer m false r a Hb Hr) by (rewrite Ea; discriminate). rewrite Hn'. reflexivity. }
        split; [exact P1|]. split; [exact Hm|]. split; [|rewrite P3; reflexivity]. right. right. right. rewrite P2. split; [exact Hm|]. split; [exists false, r; exact Hr|]. auto.
    + exfalso. rewrite XF_pass in H; [|exact Hb|exists CEnd, s, r; exact Hr|exact Ht]. rewrite (x_pass_other _ _ _ _ _ Hr) in H by discriminate. unfold x_rest in H. rewrite !Hr in H. cbn [x_then] in H. rewrite Hr in H. discriminate.
Qed.
(** the head is complete and the body announced as gzip cannot be unpacked *)
Definition at_gzip (m : msg) (text : bytes) (e : exn) (m' : msg) : Prop :=
  exists a lost m1 h', text = a ++ LF :: lost /\ base_feed gz m a = Ret (m1, []) /\ bwf m1 /\ m_mode m1 = Headers /\ m_reader m1 = None /\
    add_header_line (m_head m1) (pending m1 ++ [LF]) = Ret h' /\ in_list (pending m1 ++ [LF]) NEWLINES = true /\
    m' = set_mode (set_head (took m1 [LF]) h') Body /\ begin_body gz m' lost = Raise e.
Definition raised_at (m : msg) (text : bytes) (e : exn) (m' : msg) : Prop :=
  at_line m text e m' \/ at_gzip m text e m' \/ (m' = m /\ e = EValueError /\ m_mode m = Body /\ m_reader m = None /\ forall x, m_chunks m <> [x]).
Lemma begin_raise m text e : begin_body gz m text = Raise e -> has_body (m_head m) = true /\ gzip_with_length (m_head m) /\ e <> EOSError /\
  exists n, h_length (m_head m) = Some n /\ gz (py_take n text) = Raise e.
Proof.
  unfold begin_body. destruct (has_body (m_head m)); cbn [negb]; [|discriminate]. destruct (body_is_chunked (m_head m)); [discriminate|].
  unfold body_length. destruct (h_mode (m_head m)) eqn:Hm; try discriminate. destruct (h_length (m_head m)) as [k|] eqn:Hk; [|discriminate].
  destruct (h_encoding (m_head m)) as [en|] eqn:He; [|discriminate]. destruct (endswith (B "gzip") en) eqn:Hg; [|discriminate]. unfold zip_reader.
  destruct (gz (py_take k text)) as [d|e0|] eqn:Hz; try discriminate. intro X. split; [reflexivity|]. split; [split; [exact Hm|]; exists en; auto|].
  assert (e0 = e /\ e0 <> EOSError) as [<- Hne] by (destruct e0; try discriminate; (split; [injection X as X; exact X|discriminate])). eauto.
Qed.
Lemma begin_any m text m2 : begin_body gz m text = Ret m2 -> (m_mode m2 = Body /\ (m_reader m2 = None -> exists x, m_chunks m2 = [x]) /\ (is_chunk m2 -> forall t, begin_body gz m t = Ret m2)) \/ m_mode m2 = End \/ m_mode m2 <> End /\ m_mode m <> Body.
Proof.
  unfold begin_body. destruct (has_body (m_head m)); cbn [negb]; [|intro X; injection X as <-; right; left; reflexivity].
  destruct (body_is_chunked (m_head m)).
  { intro X. injection X as <-. destruct (m_mode m) eqn:Hm; cbn; auto; try (right; right; split; cbn; rewrite ?Hm; discriminate). left. split; [exact Hm|]. split; [discriminate|reflexivity]. }
  destruct (body_length (m_head m)) as [k|].
  - match goal with |- bind ?x _ = _ -> _ => destruct x as [rd| |] eqn:Ex end; try discriminate. cbn [bind]. destruct (reader_remaining rd =? 0)%Z; intro X; injection X as <-; [right; left; reflexivity|].
    destruct (m_mode m) eqn:Hm; cbn; auto; try (right; right; split; cbn; rewrite ?Hm; discriminate). left. split; [exact Hm|]. split; [discriminate|]. intros (c & s & r & Y). exfalso. cbn in Y. injection Y as ->.
    destruct (match h_encoding (m_head m) with Some e => endswith (B "gzip") e | None => false end); [|discriminate]. unfold zip_reader in Ex. destruct (gz _) as [d|e0|]; try discriminate. destruct e0; discriminate.
  - intro X. injection X as <-. destruct (m_mode m) eqn:Hm; cbn; auto; try (right; right; split; cbn; rewrite ?Hm; discriminate). left. split; [exact Hm|]. split; [eexists; reflexivity|]. intros (c & s & r & Y). discriminate.
Qed.
(** in the body *)
Lemma x_body_raise m text e m' : inv m -> m_mode m = Body -> x_base gz m text = (Raise e, m') ->
  (at_line m text e m' /\ is_chunk m) \/ (m' = m /\ e = EValueError /\ m_mode m = Body /\ m_reader m = None /\ forall x, m_chunks m <> [x]).
Proof.
  intros [[Hb [Hr [Hc Hh]]] Hz] Hm H. assert (Ht : text <> []) by (intros ->; rewrite XB_nil in H; discriminate). rewrite XB_body in H by assumption. unfold x_body in H.
  destruct (m_reader m) as [[c s r|r|z r]|] eqn:Er.
  - left. assert (Hk : is_chunk m) by (exists c, s, r; exact Er). split; [|exact Hk]. destruct (Hc _ _ _ eq_refl) as [Hcm Hcs]. assert (Hf : flag_ok m) by (exists c, s, r; auto).
    fold (XF m text) in H. destruct (XF m text) as [[[t|]|e0|] m1] eqn:E; try discriminate.
    injection H as <- <-. apply (XF_raise (List.length text)) in E; auto. destruct E as (a & lost & m2 & T & C & B2 & M2 & R & ->).
    exists a, lost, m2, (m_head m2). split; [exact T|]. split; [rewrite (BF_chunk gz m a Hm Hk), C; reflexivity|]. split; [exact B2|]. split; [exact R|]. destruct m2; reflexivity.
  - destruct (length_feed m r text). discriminate.
  - destruct (zip_feed m z r text). discriminate.
  - right. unfold x_raw in H. destruct (m_chunks m) as [|[o k] [|q l]] eqn:El; try discriminate; injection H as <- <-; (repeat split; auto; intros; discriminate).
Qed.
Theorem x_base_raise n : forall m text e m', List.length text <= n -> inv m -> x_base gz m text = (Raise e, m') -> raised_at m text e m'.
Proof.
  induction n as [|n IH]; intros m text e m' Hn Hi H.
  - destruct text; [rewrite XB_nil in H; discriminate|cbn in Hn; lia].
  - assert (Ht : text <> []) by (intros ->; rewrite XB_nil in H; discriminate). pose proof Hi as [[Hb [Hr [Hc Hh]]] Hz].
    destruct (m_mode m) eqn:Hm.
    + rewrite (XB_start m text Hm Hb Ht) in H. destruct (split_once LF text) as [[a b]|] eqn:E; [|discriminate].
      destruct (lf_parts _ _ _ E) as (T & Na & Hl & Hx & Hn'). cbv zeta in H. destruct (in_list _ NEWLINES) eqn:En; [discriminate|].
      destruct (set_start_line (m_head m) _) as [h|e0|] eqn:Eh; try discriminate.
      * set (m2 := set_mode (set_head (took m (a ++ [LF])) h) Headers) in *.
        assert (I2 : inv m2) by (apply reader_none_inv; [apply bwf_mode, bwf_head, bwf_took|apply Hr; auto]).
        apply IH in H; [|lia|exact I2]. destruct H as [H|[H|H]].
        -- left. destruct H as (a2 & lost & m1 & h' & T2 & C2 & K). exists (a ++ LF :: a2), lost, m1, h'. split; [rewrite cons_app, <- T2; exact T|]. split; [|exact K].
           rewrite (BF_start gz m _ Hm Hb (mid_nonempty _ _ _)), Hx. cbv zeta. rewrite En, Eh. exact C2.
        -- right. left. destruct H as (a2 & lost & m1 & h' & T2 & C2 & K). exists (a ++ LF :: a2), lost, m1, h'. split; [rewrite cons_app, <- T2; exact T|]. split; [|exact K].
           rewrite (BF_start gz m _ Hm Hb (mid_nonempty _ _ _)), Hx. cbv zeta. rewrite En, Eh. exact C2.
        -- exfalso. destruct H as (_ & _ & X & _). discriminate.
      * injection H as <- <-. left. destruct (pushed_line m a Hb Na) as (P1 & P2 & P3). exists a, b, (pushed m a), (m_head m). split; [exact T|]. split.
        { destruct a as [|c0 a0] eqn:Ea; [rewrite pushed_nil; apply BF_nil|]. rewrite <- Ea in *. rewrite (BF_start gz m a Hm Hb) by (rewrite Ea; discriminate). rewrite Hn'. reflexivity. }
        split; [exact P1|]. split; [|rewrite P3; destruct m; reflexivity]. left. rewrite P2. auto.
    + rewrite (XB_headers m text Hm Hb Ht) in H. destruct (split_once LF text) as [[a b]|] eqn:E; [|discriminate].
      destruct (lf_parts _ _ _ E) as (T & Na & Hl & Hx & Hn'). cbv zeta in H. destruct (x_header_line (m_head m) _) as [[u|e0|] h] eqn:Eh; try discriminate.
      * assert (Ea : add_header_line (m_head m) (pending m ++ a ++ [LF]) = Ret h).
        { unfold x_header_line in Eh. destruct (add_header_line (m_head m) _); try discriminate. injection Eh as _ <-. reflexivity. }
        destruct (in_list (pending m ++ a ++ [LF]) NEWLINES) eqn:En.
        -- set (m2 := set_mode (set_head (took m (a ++ [LF])) h) Body) in *. assert (R2 : m_reader m2 = None) by (apply Hr; auto).
           assert (B2 : bwf m2) by (apply bwf_mode, bwf_head, bwf_took).
           unfold x_begin in H. destruct (begin_body gz m2 b) as [m3|e1|] eqn:E3; cbn [x_on] in H; try discriminate.
           ++ pose proof (begin_body_inv gz _ _ _ B2 R2 eq_refl E3) as I3.
              destruct (begin_any _ _ _ E3) as [(M3 & C3 & A3)|[M3|(_ & X)]]; [|rewrite XB_done in H by auto; discriminate|exfalso; apply X; reflexivity].
              destruct (x_body_raise _ _ _ _ I3 M3 H) as [[H' K]|(_ & _ & _ & R3 & X)]; [|exfalso; destruct (C3 R3) as [x Y]; exact (X x Y)].
              left. destruct H' as (a2 & lost & m1 & h' & T2 & C2 & K2). exists (a ++ LF :: a2), lost, m1, h'. split; [rewrite cons_app, <- T2; exact T|]. split; [|exact K2].
              rewrite (BF_headers gz m _ Hm Hb (mid_nonempty _ _ _)), Hx. cbv zeta. rewrite Ea. cbn [bind]. rewrite En. fold m2. rewrite (A3 K). exact C2.
           ++ injection H as <- <-. right. left. destruct (pushed_line m a Hb Na) as (P1 & P2 & P3). exists a, b, (pushed m a), h. split; [exact T|]. split.
              { destruct a as [|c0 a0] eqn:Ea0; [rewrite pushed_nil; apply BF_nil|]. rewrite <- Ea0 in *. rewrite (BF_headers gz m a Hm Hb) by (rewrite Ea0; discriminate). rewrite Hn'. reflexivity. }
              split; [exact P1|]. split; [exact Hm|]. split; [exact R2|]. rewrite P2, P3. auto.
        -- set (m2 := set_head (took m (a ++ [LF])) h) in *.
           assert (I2 : inv m2) by (apply reader_none_inv; [apply bwf_head, bwf_took|apply Hr; auto]).
           apply IH in H; [|lia|exact I2]. destruct H as [H|[H|H]].
           ++ left. destruct H as (a2 & lost & m1 & h' & T2 & C2 & K). exists (a ++ LF :: a2), lost, m1, h'. split; [rewrite cons_app, <- T2; exact T|]. split; [|exact K].
              rewrite (BF_headers gz m _ Hm Hb (mid_nonempty _ _ _)), Hx. cbv zeta. rewrite Ea. cbn [bind]. rewrite En. exact C2.
           ++ right. left. destruct H as (a2 & lost & m1 & h' & T2 & C2 & K). exists (a ++ LF :: a2), lost, m1, h'. split; [rewrite cons_app, <- T2; exact T|]. split; [|exact K].
              rewrite (BF_headers gz m _ Hm Hb (mid_nonempty _ _ _)), Hx. cbv zeta. rewrite Ea. cbn [bind]. rewrite En. exact C2.
           ++ exfalso. destruct H as (_ & _ & X & _). change (m_mode m2) with (m_mode m) in X. congruence.
      * injection H as <- <-. left. destruct (pushed_line m a Hb Na) as (P1 & P2 & P3). exists a, b, (pushed m a), h. split; [exact T|]. split.
        { destruct a as [|c0 a0] eqn:Ea; [rewrite pushed_nil; apply BF_nil|]. rewrite <- Ea in *. rewrite (BF_headers gz m a Hm Hb) by (rewrite Ea; discriminate). rewrite Hn'. reflexivity. }
        split; [exact P1|]. split; [|rewrite P3; destruct m; reflexivity]. right. left. rewrite P2. auto.
    + destruct (x_body_raise _ _ _ _ Hi Hm H) as [[A _]|A]; [left|right; right]; exact A.
    + rewrite XB_done in H by auto. discriminate.
    + rewrite XB_done in H by auto. discriminate.
Qed.
End G.
