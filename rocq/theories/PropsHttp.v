(** Properties C31, C32, C40, C41, C44: the HTTP parser on arbitrary input.

    [gz] is the gzip decompressor used for bodies with both a length and a gzip coding;
    nothing is assumed about it beyond the exceptions it may raise ([gz_ok]). *)
From Verif Require Import RegexFacts.
From Verif Require Export HttpHist.
From Coq Require Import String List Lia ZArith.
Open Scope list_scope.

(** ** C31  no byte is lost or invented *)
Lemma session_used gz m0 l m : session gz m0 l m -> inv m0 -> ~ zipped m ->
  exists used, Forall2 (fun call u => fst call = u ++ snd call) l used /\ m_buf m = m_buf m0 ++ concat used.
Proof.
  intro S. induction S as [m0|m0 text m1 r l m2 E S IH]; intros Hi Hg.
  - exists []. split; [constructor|symmetry; apply app_nil_r].
  - pose proof (feed_inv gz _ _ _ _ Hi E) as Hi1.
    assert (Zs : session gz m1 l m2 -> inv m1 -> zipped m1 -> zipped m2).
    { clear. intro S. induction S as [m0|m0 text m1 r l m2 E S IH]; intros Hi Hz; [exact Hz|]. apply IH; [eapply feed_inv; eassumption|]. eapply feed_grows; eassumption. }
    destruct (IH Hi1 Hg) as (us & U1 & U2).
    pose proof (feed_bytes gz _ _ _ _ Hi E (fun z => Hg (Zs S Hi1 z))) as Eb. destruct (feed_grows gz _ _ _ _ Hi E) as [[u Hu] _].
    exists (u :: us). split.
    + constructor; [|exact U1]. cbn [fst snd]. rewrite Hu, <- app_assoc in Eb. symmetry. exact (app_inv_head _ _ _ Eb).
    + cbn [concat]. rewrite U2, Hu, <- app_assoc. reflexivity.
Qed.
(** Every call returns a suffix of what it was given, and the message is exactly what
    the calls used, in order. *)
Theorem C31_message_is_what_was_used gz kind ign calls m :
  session gz (parser_for kind ign) calls m -> ~ gzip_with_length (m_head m) ->
  exists used, Forall2 (fun call u => fst call = u ++ snd call) calls used /\ get_message m = concat used.
Proof.
  intros S Hg. pose proof (fresh_inv _ kind ign (parser_fresh _ _)) as Hi. pose proof (session_inv gz _ _ _ S Hi) as [_ Hz].
  destruct (session_used gz _ _ _ S Hi (fun z => Hg (Hz z))) as (u & U1 & U2). exists u. split; [exact U1|exact U2].
Qed.
(** Feeding back what each call returned: message and last remainder make up the input. *)
Fixpoint feed_again (gz : bytes -> outcome bytes) (m : msg) (unread : bytes) (pieces : list bytes) : outcome (msg * bytes) :=
  match pieces with
  | [] => Ret (m, unread)
  | p :: ps => bind (feed gz m (unread ++ p)) (fun q => feed_again gz (fst q) (snd q) ps)
  end.
Lemma again_inv gz ps : forall m0 l0 m unread, inv m0 -> feed_again gz m0 l0 ps = Ret (m, unread) -> (zipped m0 -> zipped m) /\ inv m.
Proof.
  induction ps as [|p ps IH]; intros m0 l0 m unread Hi E; cbn [feed_again] in E; [injection E as <- <-; auto|].
  destruct (feed gz m0 (l0 ++ p)) as [[m1 r]| |] eqn:E1; try discriminate. cbn [bind fst snd] in E.
  destruct (IH m1 r _ _ (feed_inv gz _ _ _ _ Hi E1) E) as [A B]. split; [|exact B]. intro z. apply A. exact (proj2 (feed_grows gz _ _ _ _ Hi E1) z).
Qed.
Lemma again_bytes gz ps : forall m0 l0 m unread, inv m0 -> feed_again gz m0 l0 ps = Ret (m, unread) -> ~ zipped m -> m_buf m ++ unread = m_buf m0 ++ l0 ++ concat ps.
Proof.
  induction ps as [|p ps IH]; intros m0 l0 m unread Hi E Hz; cbn [feed_again] in E; [injection E as -> ->; cbn [concat]; rewrite app_nil_r; reflexivity|].
  destruct (feed gz m0 (l0 ++ p)) as [[m1 r]| |] eqn:E1; try discriminate. cbn [bind fst snd] in E.
  pose proof (feed_inv gz _ _ _ _ Hi E1) as Hi1. pose proof (again_inv gz ps _ _ _ _ Hi1 E) as [A _].
  rewrite (IH m1 r _ _ Hi1 E Hz). rewrite app_assoc, (feed_bytes gz _ _ _ _ Hi E1 (fun z => Hz (A z))). cbn [concat]. rewrite <- !app_assoc. reflexivity.
Qed.
Theorem C31_nothing_lost gz kind ign pieces m unread :
  feed_again gz (parser_for kind ign) [] pieces = Ret (m, unread) -> ~ gzip_with_length (m_head m) ->
  get_message m ++ unread = concat pieces.
Proof.
  intros H Hg. pose proof (fresh_inv _ kind ign (parser_fresh _ _)) as Hi. pose proof (again_inv gz _ _ _ _ _ Hi H) as [_ [_ Hz]].
  exact (again_bytes gz _ _ _ _ _ Hi H (fun z => Hg (Hz z))).
Qed.
(** The proviso is needed: a gzip body with a length is replaced by its decompressed
    form (any decompressor that succeeds with other data). *)
Definition gz_demo (b : bytes) : outcome bytes := match b with [] => Ret [] | _ => Ret (B "hello") end.
Definition zip_head : bytes := B "HTTP/1.1 200 OK" ++ CRLF ++ B "Content-Length: 3" ++ CRLF ++ B "Content-Encoding: gzip" ++ CRLF ++ CRLF.
Example C31_gzip_replaces_bytes :
  match feed_again gz_demo (parser_for (Some (B "GET")) []) [] [zip_head ++ B "abcXYZ"] with
  | Ret (m, unread) => get_message m = zip_head ++ B "hello" /\ unread = []
  | _ => False
  end.
Proof. vm_compute. auto. Qed.
Example C31_case :
  match feed_again gz_demo (parser_for (Some (B "GET")) []) []
    [CRLF ++ B "HTTP/1.1 200"; B " OK" ++ [LF] ++ B "content-length: 3" ++ CRLF ++ CRLF ++ B "ab"; B "cNEXT"] with
  | Ret (m, unread) => get_body m = B "abc" /\ unread = B "NEXT" /\ ~ gzip_with_length (m_head m)
  | _ => False
  end.
Proof. vm_compute. repeat split. intros (_ & e & X & _). discriminate. Qed.

(** ** C32  the split does not matter *)
(** The result of feeding everything at once leaves no doubt: no blank first line
    followed by more, no gzip body with a length, no body kept raw although it was
    announced as chunked, no complete 100 response, no gzip error. *)
Definition orderly (x : outcome (msg * bytes)) : Prop :=
  match x with
  | Ret (m, unread) =>
      (m_mode m = Start -> unread = []) /\ ~ gzip_with_length (m_head m) /\
      ~ (m_mode m = Body /\ m_reader m = None /\ h_mode (m_head m) = MChunked) /\
      ~ (complete m = true /\ status m = Some 100%Z)
  | Raise e => e <> EEOFError /\ e <> EZlibError
  | Diverge => True
  end.
Lemma orderly_settled gz m text : inv m -> orderly (feed gz m text) -> settled (feed gz m text).
Proof.
  intros Hi. destruct (feed gz m text) as [[m' r]|e|] eqn:E; intro H.
  - destruct H as (A & Bz & C & D). apply feed_inv in E as [_ Hz]; [|exact Hi]. split; [|exact D]. split; [exact A|]. split; [intro z; exact (Bz (Hz z))|exact C].
  - split; [exact H|exact I].
  - split; exact I.
Qed.
Theorem C32_split_does_not_matter gz : gz_ok gz -> forall m pieces, reached gz m -> ~ (complete m = true /\ status m = Some 100%Z) ->
  orderly (feed gz m (concat pieces)) -> feed_all gz m pieces = feed gz m (concat pieces).
Proof.
  intros Hgz m pieces Hr Hn Ho. pose proof (reached_inv gz _ Hr) as Hi. apply feed_pieces; [exact Hgz|apply Hi|exact Hn|]. apply orderly_settled; assumption.
Qed.
Corollary C32_new_parser gz : gz_ok gz -> forall kind ign pieces, orderly (feed gz (parser_for kind ign) (concat pieces)) ->
  feed_all gz (parser_for kind ign) pieces = feed gz (parser_for kind ign) (concat pieces).
Proof.
  intros Hgz kind ign pieces Ho. apply C32_split_does_not_matter; [exact Hgz|apply reached_fresh| |exact Ho]. exact (fresh_continue _ _ _ (parser_fresh kind ign)).
Qed.
(** Until a message is complete no byte is refused: if feeding [a ++ b] uses at least
    one byte of [b], then feeding [a] alone uses all of [a] and does not complete. *)
Theorem C32_no_early_end gz : gz_ok gz -> forall m a b m' unread, reached gz m -> feed gz m (a ++ b) = Ret (m', unread) -> orderly (Ret (m', unread)) ->
  (List.length unread < List.length b) -> exists m1, feed gz m a = Ret (m1, []) /\ complete m1 = false.
Proof.
  intros Hgz m a b m' unread Hr E Ho Hl. pose proof (reached_inv gz _ Hr) as Hi.
  assert (Hs : settled (feed gz m (a ++ b))) by (apply orderly_settled; [exact Hi|rewrite E; exact Ho]).
  destruct (feed_split gz Hgz m a b (proj1 Hi) Hs) as [Es Hn]. rewrite E in Es. destruct (feed gz m a) as [[m1 r]| |] eqn:Ea; cbn [bind fst snd] in Es; try discriminate.
  destruct r as [|x r].
  - exists m1. split; [reflexivity|]. destruct (complete m1) eqn:C; [|reflexivity]. exfalso. destruct (Hn _ eq_refl) as [_ Nc].
    unfold complete in C. destruct (m_mode m1) eqn:Em; try discriminate. rewrite feed_resp, BF_done in Es by auto. cbn [bind] in Es. unfold resp in Es. cbn [fst snd] in Es.
    destruct (continue_dec m1); [contradiction|]. injection Es as _ ->. lia.
  - exfalso. injection Es as _ ->. cbn [app List.length] in Hl. rewrite app_length in Hl. lia.
Qed.
(** Each proviso is needed. *)
Definition gz_none (b : bytes) : outcome bytes := Raise EOSError.
Lemma gz_none_ok : gz_ok gz_none. Proof. intro b. cbn. auto. Qed.
Definition a_request : bytes := B "GET / HTTP/1.1" ++ CRLF ++ CRLF.
Definition chunked_head : bytes := B "HTTP/1.1 200 OK" ++ CRLF ++ B "Transfer-Encoding: chunked" ++ CRLF ++ CRLF.
Definition continue_head : bytes := B "HTTP/1.1 100 Continue" ++ CRLF ++ CRLF.
Definition final_head : bytes := B "HTTP/1.1 204 No Content" ++ CRLF ++ CRLF.
Definition done_with (x : outcome (msg * bytes)) (b : bool) (unread : bytes) : Prop :=
  match x with Ret (m, l) => complete m = b /\ l = unread | _ => False end.
Theorem C32_blank_first_line_depends_on_split :
  done_with (feed gz_none (parser_for None []) (CRLF ++ a_request)) false a_request /\
  done_with (feed_all gz_none (parser_for None []) [CRLF; a_request]) true [].
Proof. vm_compute. auto 10. Qed.
Theorem C32_gzip_depends_on_split :
  match feed gz_demo (parser_for (Some (B "GET")) []) (zip_head ++ B "abc") with Ret (m, l) => get_body m = B "hello" /\ l = [] | _ => False end /\
  match feed_all gz_demo (parser_for (Some (B "GET")) []) [zip_head; B "abc"] with Ret (m, l) => get_body m = [] /\ l = B "abc" | _ => False end.
Proof. vm_compute. auto. Qed.
Theorem C32_bad_chunk_size_depends_on_split :
  match feed gz_none (parser_for (Some (B "GET")) []) (chunked_head ++ B "hello" ++ [LF]) with Ret (m, l) => get_body m = B "hello" ++ [LF] /\ l = [] | _ => False end /\
  feed_all gz_none (parser_for (Some (B "GET")) []) [chunked_head ++ B "hel"; B "lo" ++ [LF]] = Raise EValueError.
Proof. vm_compute. auto. Qed.
Theorem C32_two_continues_depend_on_split :
  done_with (feed gz_none (parser_for (Some (B "GET")) []) (continue_head ++ continue_head ++ final_head)) true final_head /\
  done_with (feed_all gz_none (parser_for (Some (B "GET")) []) [continue_head; continue_head; final_head]) true [].
Proof. vm_compute. auto 10. Qed.
Example C32_case : orderly (feed gz_none (parser_for (Some (B "GET")) []) (continue_head ++ chunked_head ++ B "3;x=y" ++ CRLF ++ B "abc" ++ CRLF ++ B "0" ++ CRLF ++ CRLF ++ B "NEXT")).
Proof. vm_compute. split; [discriminate|]. split; [intros (X & _); discriminate|]. split; [intros (X & _); discriminate|intros (_ & X); discriminate]. Qed.

(** ** C40  termination *)
(** a parser waiting for the data of a chunk whose size was negative *)
Definition negative_chunk (m : msg) : Prop :=
  m_mode m = Body /\ (exists s r, m_reader m = Some (RChunk CChunk s r)) /\ exists r, feed_predict m = WantAtMost r /\ (r < 0)%Z.
Lemma negative_stuck m : negative_chunk m <-> m_mode m = Body /\ stuck m.
Proof.
  unfold negative_chunk, stuck, feed_predict. split.
  - intros (Hm & (s & r & Hr) & r' & Hp & Hn). split; [exact Hm|]. rewrite Hm, Hr in Hp. destruct (r =? 0)%Z; [discriminate|]. injection Hp as <-. eauto.
  - intros (Hm & s & r & Hr & Hn). split; [exact Hm|]. split; [eauto|]. exists r. rewrite Hm, Hr. replace (r =? 0)%Z with false by lia. auto.
Qed.
Theorem C40_hangs_only_on_negative_chunk gz : gz_ok gz -> forall m text, reached gz m -> ~ (complete m = true /\ status m = Some 100%Z) ->
  feed gz m text = Diverge ->
  exists t1 t2 m', text = t1 ++ t2 /\ t2 <> [] /\ feed gz m t1 = Ret (m', []) /\ negative_chunk m'.
Proof.
  intros Hgz m text Hr Hn H. pose proof (reached_inv gz _ Hr) as Hi.
  destruct (feed_diverges gz Hgz text m Hi Hn H) as (t1 & t2 & m' & A & C & D & E). exists t1, t2, m'. rewrite negative_stuck. auto.
Qed.
(** and then it does hang: no number of passes of its loop is enough *)
Theorem C40_negative_chunk_hangs gz m text : negative_chunk m -> text <> [] ->
  feed gz m text = Diverge /\ forall passes, chunk_feed passes m text = Diverge.
Proof.
  intros H Ht. apply negative_stuck in H as [Hm Hs]. split; [apply stuck_diverges; assumption|]. apply stuck_feed; assumption.
Qed.
Example C40_case : match feed gz_none (parser_for (Some (B "GET")) []) (chunked_head ++ B "-5" ++ CRLF) with
  | Ret (m, l) => l = [] /\ negative_chunk m | _ => False end.
Proof. vm_compute. repeat split. - eexists _, _. reflexivity. - eexists. split; reflexivity. Qed.

(** ** C41  close() *)
(** complete afterwards: it was complete, or the body runs to the end of the input *)
Theorem C41_complete_after_close m : complete (close m) = true <-> complete m = true \/ m_mode m = Body /\ m_reader m = None.
Proof.
  unfold complete, close. destruct (m_reader m) as [r|]; destruct (m_mode m) eqn:E; cbn [set_mode m_mode]; rewrite ?E; split; intro H; auto; try discriminate;
    try (destruct H as [H|[H H']]; discriminate); destruct (rev (m_chunks m)) as [|[o n] t]; discriminate.
Qed.
Lemma slice_clip s o n : slice s o (Z.of_nat o + Z.min n (Z.of_nat (List.length s) - Z.of_nat o)) = slice s o (Z.of_nat o + n).
Proof.
  unfold slice. destruct (Nat.le_gt_cases o (List.length s)) as [Ho|Ho].
  - destruct (Z.le_gt_cases n (Z.of_nat (List.length s) - Z.of_nat o)) as [Hn|Hn]; [rewrite Z.min_l by lia; reflexivity|]. rewrite Z.min_r by lia.
    replace (_ <? 0)%Z with false by lia. replace (Z.of_nat o + n <? 0)%Z with false by lia. rewrite !firstn_all2; [reflexivity| |]; rewrite skipn_length; lia.
  - rewrite skipn_all2 by lia. rewrite !firstn_nil. reflexivity.
Qed.
(** the body is what was received before close(), and close() does not touch the
    message, the headers or an already complete message *)
Theorem C41_body_is_what_was_received m :
  get_body (close m) = get_body m /\ get_message (close m) = get_message m /\ m_head (close m) = m_head m /\ (complete m = true -> close m = m).
Proof.
  unfold close. assert (X : forall x, set_mode x Incomplete = set_mode x Incomplete -> get_body (set_mode x Incomplete) = get_body x) by reflexivity.
  assert (Y : forall m1, m1 = match rev (m_chunks m) with [] => m | (o, n) :: t => set_chunks m (rev t ++ [(o, Z.min n (Z.of_nat (List.length (m_buf m)) - Z.of_nat o))]) end ->
    get_body (set_mode m1 Incomplete) = get_body m /\ get_message (set_mode m1 Incomplete) = get_message m /\ m_head (set_mode m1 Incomplete) = m_head m).
  { intros m1 ->. destruct (rev (m_chunks m)) as [|[o n] t] eqn:E; [auto|]. split; [|auto].
    assert (E' : m_chunks m = rev t ++ [(o, n)]) by (rewrite <- (rev_involutive (m_chunks m)), E; reflexivity).
    unfold get_body. cbn [m_chunks m_buf set_mode set_chunks]. rewrite E', !map_app, !concat_app. cbn [map concat fst snd]. rewrite slice_clip. reflexivity. }
  specialize (Y _ eq_refl). destruct Y as (Y1 & Y2 & Y3). unfold complete.
  destruct (m_reader m) as [r|]; destruct (m_mode m); repeat split; auto; discriminate.
Qed.
Theorem C41_closed_parser_takes_nothing gz m text : m_mode (close m) = Incomplete -> feed gz (close m) text = Ret (close m, text).
Proof.
  intro H. rewrite feed_resp, BF_done by auto. cbn [bind]. unfold resp. cbn [fst snd]. destruct (continue_dec (close m)) as [[C _]|_]; [|reflexivity].
  unfold complete in C. rewrite H in C. discriminate.
Qed.

(** ** C44  feed_predict *)
(** what a caller may feed next *)
Definition allowed (p : predict) (text : bytes) : Prop :=
  match p with
  | WantLine => ~ In LF text \/ exists l, text = l ++ [LF] /\ ~ In LF l
  | WantAtMost n => (Z.of_nat (List.length text) <= n)%Z
  | WantAll => True
  end.
(** calls that follow the prediction *)
Inductive guided (gz : bytes -> outcome bytes) : msg -> list (bytes * bytes) -> msg -> Prop :=
| guided_nil m : guided gz m [] m
| guided_call m text m1 r l m2 : allowed (feed_predict m) text -> feed gz m text = Ret (m1, r) -> guided gz m1 l m2 -> guided gz m ((text, r) :: l) m2.
(** a gzip body, if it is being read at all, has not been started *)
Definition zgood (m : msg) : Prop := forall z r, m_reader m = Some (RZip z r) -> m_mode m = Body -> exists d, z = Some d /\ r = Z.of_nat (List.length d).
Lemma line_split text : ~ In LF text \/ (exists l, text = l ++ [LF] /\ ~ In LF l) -> split_once LF text = None \/ exists l, split_once LF text = Some (l, []).
Proof.
  intros [H|(l & -> & H)]; [left; apply split_once_none, H|]. right. exists l. apply (split_once_hit LF l []). exact H.
Qed.
Lemma predict_base gz m text m' r : inv m -> zgood m -> allowed (feed_predict m) text -> base_feed gz m text = Ret (m', r) -> r = [] /\ zgood m'.
Proof.
  intros Hi Hz Ha H. pose proof Hi as [(Hb & K1 & K2 & K3) _].
  destruct text as [|c t] eqn:Et; [rewrite BF_nil in H; injection H as <- <-; auto|]. rewrite <- Et in *. assert (Ht : text <> []) by (rewrite Et; discriminate).
  assert (Nz : forall x, m_reader x = None -> zgood x) by (intros x E z n X; congruence).
  unfold feed_predict in Ha. destruct (m_mode m) eqn:Em.
  - specialize (K1 (or_introl eq_refl)). rewrite BF_start in H by assumption. apply line_split in Ha as [E|[l E]]; rewrite E in H; [injection H as <- <-; auto|]. cbv zeta in H.
    destruct (in_list _ NEWLINES); [injection H as <- <-; auto|]. destruct (set_start_line _ _); try discriminate. cbn [bind] in H. rewrite BF_nil in H. injection H as <- <-. auto.
  - specialize (K1 (or_intror eq_refl)). rewrite BF_headers in H by assumption. apply line_split in Ha as [E|[l E]]; rewrite E in H; [injection H as <- <-; auto|]. cbv zeta in H.
    destruct (add_header_line _ _); try discriminate. cbn [bind] in H. destruct (in_list _ NEWLINES); [|rewrite BF_nil in H; injection H as <- <-; auto].
    match type of H with bind (begin_body gz ?M ?T) _ = _ => destruct (begin_body gz M T) as [m2| |] eqn:E2 end; try discriminate. cbn [bind] in H. rewrite BF_nil in H. injection H as <- <-. split; [reflexivity|].
    unfold begin_body in E2. destruct (negb _); [injection E2 as <-; apply Nz; exact K1|]. destruct (body_is_chunked _); [injection E2 as <-; intros z n X; discriminate|].
    destruct (body_length _) as [n|]; [|injection E2 as <-; apply Nz; reflexivity].
    match type of E2 with bind (if ?g then _ else _) _ = _ => destruct g end; [|cbn [bind reader_remaining] in E2; injection E2 as <-; destruct (n =? 0)%Z; intros z y X; discriminate].
    unfold zip_reader in E2. destruct (gz (py_take n [])) as [d|e|]; try discriminate; cbn [bind reader_remaining] in E2.
    + injection E2 as <-. destruct (Z.of_nat (List.length d) =? 0)%Z; intros z y X Y; [discriminate|]. injection X as <- <-. eauto.
    + destruct e; try discriminate. cbn [bind reader_remaining List.length Z.of_nat Z.eqb] in E2. injection E2 as <-. intros z y X Y. discriminate.
  - rewrite BF_body in H by assumption. unfold feed_body in H.
    assert (Raw : forall x, m_reader x = None -> raw_body x text = Ret (m', r) -> r = [] /\ zgood m').
    { intros x E. unfold raw_body. destruct (m_chunks x) as [|[o n] [|q l]]; try discriminate. intro X. injection X as <- <-. split; [reflexivity|]. apply Nz, E. }
    destruct (m_reader m) as [[k s n|n|z n]|] eqn:Er.
    + fold (CF m text) in H. destruct (K2 _ _ _ eq_refl) as [_ Hf].
      assert (G : forall m1 t1, CF m text = Ret (Some (m1, t1)) -> t1 = [] /\ zgood m1).
      { intros m1 t1 E1.
        assert (Zk : zgood m1).
        { unfold CF in E1. apply chunk_feed_flag in E1 as (_ & c1 & s1 & r1 & E1 & _); [|exact Hb|exists k, s, n; auto]. intros z y X. congruence. }
        split; [|exact Zk]. destruct k.
        - rewrite (CF_start m s n) in E1 by assumption. apply line_split in Ha as [E|[l E]]; rewrite E in E1; [injection E1 as <- <-; reflexivity|].
          destruct (chunk_size _) as [q|]; [|destruct s; discriminate]. rewrite CF_nil in E1. injection E1 as <- <-. reflexivity.
        - destruct (Z.eqb_spec n 0) as [->|Hn].
          + rewrite (CF_chunk_end m s) in E1 by assumption. apply line_split in Ha as [E|[l E]]; rewrite E in E1; [injection E1 as <- <-; reflexivity|]. rewrite CF_nil in E1. injection E1 as <- <-. reflexivity.
          + cbn [allowed] in Ha. destruct (Z.eq_dec (Z.of_nat (List.length text)) n) as [E|E].
            * subst n. rewrite <- (app_nil_r text) in E1. rewrite (CF_chunk_full m s text []) in E1 by assumption. rewrite CF_nil in E1. injection E1 as <- <-. reflexivity.
            * rewrite (CF_chunk_short m s n) in E1 by (try assumption; lia). injection E1 as <- <-. reflexivity.
        - rewrite (CF_trailer m s n) in E1 by assumption. apply line_split in Ha as [E|[l E]]; rewrite E in E1; [injection E1 as <- <-; reflexivity|]. cbv zeta in E1.
          destruct (add_trailer_line _ _); try discriminate. cbn [bind] in E1. destruct (in_list _ NEWLINES); [injection E1 as <- <-; reflexivity|]. rewrite CF_nil in E1. injection E1 as <- <-. reflexivity.
        - cbn [allowed] in Ha. rewrite Et in Ha. cbn in Ha. lia. }
      destruct (CF m text) as [[[m1 t1]|]| |] eqn:E; cbn [bind] in H; try discriminate.
      * injection H as <- <-. exact (G _ _ eq_refl).
      * apply Raw in H; [exact H|reflexivity].
    + cbn [allowed] in Ha. injection H as H. assert (0 < n)%Z by (rewrite Et in Ha; cbn [List.length] in Ha; lia). rewrite length_feed_pos in H by assumption. injection H as <- <-.
      split; [apply skipn_all2; lia|]. destruct (_ <=? _)%Z; intros z y X; discriminate.
    + cbn [allowed] in Ha. injection H as H. assert (0 < n)%Z by (rewrite Et in Ha; cbn [List.length] in Ha; lia). destruct (Hz z n Er Em) as (d & -> & ->).
      unfold zip_feed in H. replace (0 <? _)%Z with true in H by lia. unfold feed_length in H. rewrite Nat2Z.id, firstn_all, skipn_all in H. rewrite Z.sub_diag in H. cbn [Z.leb] in H. injection H as <- <-.
      split; [reflexivity|]. intros z y X Y. discriminate.
    + apply Raw in H; [exact H|exact Er].
  - cbn [allowed] in Ha. rewrite Et in Ha. cbn in Ha. lia.
  - cbn [allowed] in Ha. rewrite Et in Ha. cbn in Ha. lia.
Qed.
(** A caller who never feeds more than predicted never gets anything back. *)
Theorem C44_no_remainder gz kind ign calls m : guided gz (parser_for kind ign) calls m -> Forall (fun call => snd call = []) calls.
Proof.
  assert (Gen : forall m0 l m, guided gz m0 l m -> inv m0 -> zgood m0 -> Forall (fun call => snd call = []) l).
  { intros m0 l m' G. induction G as [m0|m0 text m1 r l m2 Ha E G IH]; intros Hi Hz; [constructor|].
    assert (R : r = [] /\ zgood m1).
    { rewrite feed_resp in E. destruct (base_feed gz m0 text) as [[m3 t3]| |] eqn:E3; try discriminate. cbn [bind] in E. pose proof (base_feed_inv gz _ _ _ _ Hi E3) as Hi3.
      apply predict_base in E3 as [-> Z3]; try assumption. unfold resp in E. cbn [fst snd] in E. destruct (continue_dec m3) as [C|C].
      - rewrite BF_nil in E. injection E as <- <-. split; [reflexivity|]. destruct (hinv_after _ (proj1 (proj1 Hi3)) C) as [_ R]. intros z y X. congruence.
      - injection E as <- <-. auto. }
    destruct R as [-> Z1]. constructor; [reflexivity|]. apply IH; [eapply feed_inv; eassumption|exact Z1]. }
  intro G. apply (Gen _ _ _ G); [eapply fresh_inv, parser_fresh|]. intros z r X. destruct kind; discriminate.
Qed.
Ltac no_lf_tac := let H := fresh in vm_compute; intro H; repeat (destruct H as [H|H]; [discriminate|]); exact H.
Example C44_case : exists m, guided gz_none (parser_for None []) [(B "POST / HTTP/1.1" ++ CRLF, []); (B "Content-Length: 2" ++ CRLF, []); (CRLF, []); (B "a", []); (B "b", [])] m /\ complete m = true.
Proof.
  eexists. split.
  - eapply guided_call; [right; exists (B "POST / HTTP/1.1" ++ [CR]); split; [reflexivity|no_lf_tac]|vm_compute; reflexivity|].
    eapply guided_call; [right; exists (B "Content-Length: 2" ++ [CR]); split; [reflexivity|no_lf_tac]|vm_compute; reflexivity|].
    eapply guided_call; [right; exists [CR]; split; [reflexivity|no_lf_tac]|vm_compute; reflexivity|].
    eapply guided_call; [vm_compute; discriminate|vm_compute; reflexivity|].
    eapply guided_call; [vm_compute; discriminate|vm_compute; reflexivity|]. apply guided_nil.
  - reflexivity.
Qed.
