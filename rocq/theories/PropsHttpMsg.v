(** Properties C33-C37, C42, C43: the HTTP parser on messages, in any pieces. *)
From Verif Require Import RegexFacts.
From Verif Require Export PropsHttp.
From Coq Require Import String List Lia ZArith.
Open Scope list_scope.

Definition code_of (k : hkind) : option Z := match k with KResponse _ _ c _ => Some c | _ => None end.
Lemma deliver gz kind ign text m r pieces : gz_ok gz -> base_feed gz (parser_for kind ign) text = Ret (m, r) -> code_of (h_kind (m_head m)) <> Some 100%Z ->
  regular (Ret (m, r)) -> concat pieces = text -> feed_all gz (parser_for kind ign) pieces = Ret (m, r).
Proof.
  intros Hgz E Hc Hr <-. assert (Hn : ~ continue_done m) by (intros [_ C]; exact (Hc C)).
  assert (F : feed gz (parser_for kind ign) (concat pieces) = Ret (m, r)).
  { rewrite feed_resp, E. cbn [bind]. unfold resp. cbn [fst snd]. destruct (continue_dec m); [contradiction|reflexivity]. }
  rewrite <- F. apply feed_pieces; [exact Hgz|apply (fresh_hinv _ kind ign), parser_fresh|apply (fresh_continue _ kind ign), parser_fresh|]. rewrite F. split; assumption.
Qed.
Lemma body_code k : may_have_body k -> code_of k <> Some 100%Z.
Proof. destruct k; cbn; [discriminate|]. intros H X. injection X as ->. apply H. right. left. lia. Qed.
Lemma digits_int v : v <> [] -> forallb is_digit v = true -> py_int 10 v = Some (dec_value v).
Proof. intros H1 H2. rewrite <- (app_nil_r v) at 1. apply py_int_dec; [exact H1|exact H2|reflexivity]. Qed.
Lemma readable ign l v : length_value ign l = Some v -> v <> [] -> forallb is_digit v = true -> length_readable ign l.
Proof. intros H N D w Hw. rewrite H in Hw. injection Hw as <-. rewrite digits_int by assumption. discriminate. Qed.

Section M.
Variable gz : bytes -> outcome bytes.
Hypothesis Hgz : gz_ok gz.
Section Msg.
(** a parser for a request ([kind] is [None]) or for the response to a request with
    the method in [kind]; the head of a message and what its first line says *)
Variables (kind : option bytes) (ign : list bytes) (h : msg_head) (k : hkind).
Hypothesis Hok : head_ok h.
Hypothesis Hsays : start_says kind (hd_start h) k.
Notation pairs := (head_pairs h).
Notation parser := (parser_for kind ign).

(** ** C33  Content-Length *)
Lemma length_parse v n body x : may_have_body k -> says_chunked (ignored ign) pairs = false -> length_value (ignored ign) pairs = Some v ->
  v <> [] -> forallb is_digit v = true -> dec_value v = n -> gzip_coded ign pairs = false ->
  Z.of_nat (List.length body) = n \/ (Z.of_nat (List.length body) < n)%Z /\ x = [] ->
  exists hd, head_facts hd k ign pairs /\ base_feed gz parser (head_text h ++ body ++ x) = Ret (in_length parser h hd n body, x).
Proof.
  intros Hb Hc Hv Hn Hd He Hg Hx. destruct (head_result gz parser kind ign h k (parser_fresh kind ign) Hok Hsays (readable _ _ _ Hv Hn Hd)) as (hd & F & E).
  exists hd. split; [exact F|]. rewrite E. apply (length_body gz parser h hd k ign n body x F Hb Hc); [|exact Hg|exact Hx].
  exists v. split; [exact Hv|]. rewrite <- He. apply digits_int; assumption.
Qed.
Theorem C33_length_body_is_exact v body rest pieces : may_have_body k ->
  says_chunked (ignored ign) pairs = false -> length_value (ignored ign) pairs = Some v -> v <> [] -> forallb is_digit v = true ->
  gzip_coded ign pairs = false ->
  dec_value v = Z.of_nat (List.length body) -> concat pieces = head_text h ++ body ++ rest ->
  exists m, feed_all gz parser pieces = Ret (m, rest) /\ complete m = true /\ get_body m = body /\
    get_message m = head_text h ++ body /\ h_kind (m_head m) = k /\ h_headers (m_head m) = pairs.
Proof.
  intros Hb Hc Hv Hn Hd Hg He Hp. destruct (length_parse v _ body rest Hb Hc Hv Hn Hd He Hg (or_introl eq_refl)) as (hd & F & E).
  set (m := in_length parser h hd (Z.of_nat (List.length body)) body) in *.
  assert (Mm : m_mode m = End) by (unfold m, in_length; cbn [m_mode]; rewrite Z.eqb_refl; reflexivity).
  exists m. split.
  - apply (deliver gz kind ign _ _ _ pieces Hgz E); [change (h_kind (m_head m)) with (h_kind hd); rewrite (hf_kind _ _ _ _ F); apply body_code, Hb| |exact Hp].
    split; [congruence|]. split; [intros (z & r & X); discriminate|]. intros (X & _). congruence.
  - split; [unfold complete; rewrite Mm; reflexivity|]. split; [apply in_length_body; lia|]. split; [destruct kind; reflexivity|]. split; apply F.
Qed.
(** not complete before the last byte of the body *)
Theorem C33_short_body_is_incomplete v body pieces : may_have_body k ->
  says_chunked (ignored ign) pairs = false -> length_value (ignored ign) pairs = Some v -> v <> [] -> forallb is_digit v = true ->
  gzip_coded ign pairs = false ->
  (Z.of_nat (List.length body) < dec_value v)%Z -> concat pieces = head_text h ++ body ->
  exists m, feed_all gz parser pieces = Ret (m, []) /\ complete m = false /\ get_body m = body /\
    complete (close m) = false /\ get_body (close m) = body /\ feed_predict m = WantAtMost (dec_value v - Z.of_nat (List.length body)).
Proof.
  intros Hb Hc Hv Hn Hd Hg He Hp. destruct (length_parse v _ body [] Hb Hc Hv Hn Hd eq_refl Hg (or_intror (conj He eq_refl))) as (hd & F & E).
  rewrite app_nil_r in E. set (m := in_length parser h hd (dec_value v) body) in *.
  assert (Mm : m_mode m = Body) by (unfold m, in_length; cbn [m_mode]; replace (_ =? _)%Z with false by lia; reflexivity).
  assert (Mr : m_reader m = Some (RLength (dec_value v - Z.of_nat (List.length body)))) by reflexivity.
  assert (Mb : get_body m = body) by (apply in_length_body; lia).
  exists m. split; [|split; [unfold complete; rewrite Mm; reflexivity|split; [exact Mb|split; [|split]]]].
  - apply (deliver gz kind ign _ _ _ pieces Hgz E); [change (h_kind (m_head m)) with (h_kind hd); rewrite (hf_kind _ _ _ _ F); apply body_code, Hb| |exact Hp].
    split; [congruence|]. split; [intros (z & r & X); discriminate|]. intros (_ & X & _). discriminate.
  - destruct (complete (close m)) eqn:C; [|reflexivity]. apply C41_complete_after_close in C as [C|[_ C]]; [unfold complete in C; rewrite Mm in C|]; discriminate.
  - rewrite (proj1 (C41_body_is_what_was_received m)). exact Mb.
  - unfold feed_predict. rewrite Mm, Mr. reflexivity.
Qed.
(** a length that is no integer is refused *)
Theorem C33_bad_length_raises v rest pieces : says_chunked (ignored ign) pairs = false -> length_value (ignored ign) pairs = Some v -> py_int 10 v = None ->
  concat pieces = head_text h ++ rest -> feed_all gz parser pieces = Raise EValueError.
Proof.
  intros Hc Hv Hn Hp.
  assert (E : feed gz parser (concat pieces) = Raise EValueError).
  { rewrite feed_resp, Hp, BF_head; [|destruct kind; reflexivity|reflexivity|exact Hok].
    assert (S : exists h1, set_start_line (m_head parser) (hd_start h ++ eol (hd_start_crlf h)) = Ret h1 /\ h_headers h1 = [] /\ h_mode h1 = MClose /\ h_ignore h1 = ignored ign).
    { destruct Hsays as [l method target version text Hr|rm l version code phrase Hr].
      - erewrite start_request; [|reflexivity|exact Hr]. eexists. split; [reflexivity|]. cbn. auto.
      - destruct (start_status rm (B "HTTP/1.1") 0 None l (hd_start_crlf h) version code phrase (start_hdr (Some rm) ign) eq_refl Hr) as (kk & E & _). cbn [parser_for new_msg m_head]. rewrite E. eexists. split; [reflexivity|]. cbn. auto. }
    destruct S as (h1 & S1 & S2 & S3 & S4). rewrite S1. cbn [bind]. rewrite S2. cbn [app]. rewrite (note_headers_first_bad pairs _ v); [reflexivity|exact S3| | |exact Hn]; change (h_ignore (set_headers h1 pairs)) with (h_ignore h1); rewrite S4; assumption. }
  rewrite <- E. apply C32_new_parser; [exact Hgz|]. rewrite E. split; discriminate.
Qed.

(** ** C34  chunked *)
Lemma chunked_parse c x : may_have_body k -> says_chunked (ignored ign) pairs = true -> length_readable (ignored ign) pairs -> chunked_ok c ->
  exists hd, head_facts hd k ign pairs /\ base_feed gz parser (head_text h ++ chunked_text c ++ x) = Ret (chunked_done (head_done parser h hd) c, x).
Proof.
  intros Hb Hc Hl Hk. destruct (head_result gz parser kind ign h k (parser_fresh kind ign) Hok Hsays Hl) as (hd & F & E).
  exists hd. split; [exact F|]. rewrite E. apply (chunked_body gz parser h hd k ign c x F Hb); [destruct kind; reflexivity|exact Hc|exact Hk].
Qed.
Theorem C34_chunked_body_is_exact c rest pieces : may_have_body k -> says_chunked (ignored ign) pairs = true -> length_readable (ignored ign) pairs ->
  chunked_ok c -> concat pieces = head_text h ++ chunked_text c ++ rest ->
  exists m, feed_all gz parser pieces = Ret (m, rest) /\ complete m = true /\ get_body m = chunked_data c /\
    get_message m = head_text h ++ chunked_text c /\ h_kind (m_head m) = k /\ h_headers (m_head m) = pairs /\
    h_trailers (m_head m) = map field_pair (k_trailers c).
Proof.
  intros Hb Hc Hl Hk Hp. destruct (chunked_parse c rest Hb Hc Hl Hk) as (hd & F & E). eexists. split.
  - apply (deliver gz kind ign _ _ _ pieces Hgz E); [|  |exact Hp].
    + change (h_kind (m_head (chunked_done (head_done parser h hd) c))) with (h_kind hd). rewrite (hf_kind _ _ _ _ F). apply body_code, Hb.
    + split; [discriminate|]. split; [intros (z & r & X); discriminate|]. intros (X & _). discriminate.
  - split; [reflexivity|]. split; [apply chunked_done_body; destruct kind; reflexivity|]. split; [destruct kind; reflexivity|]. split; [apply F|]. split; [apply F|].
    change (h_trailers hd ++ map field_pair (k_trailers c) = map field_pair (k_trailers c)). rewrite (hf_trailers _ _ _ _ F). reflexivity.
Qed.

(** ** C35  no body *)
Definition cannot_have_body : Prop :=
  match k with
  | KResponse rm _ code _ => bodyless rm code
  | KRequest _ _ _ _ => says_chunked (ignored ign) pairs = false /\ length_value (ignored ign) pairs = None
  end.
Lemma no_body_parse x : cannot_have_body -> length_readable (ignored ign) pairs ->
  exists hd, head_facts hd k ign pairs /\ base_feed gz parser (head_text h ++ x) = Ret (set_mode (head_done parser h hd) End, x).
Proof.
  intros Hb Hl. destruct (head_result gz parser kind ign h k (parser_fresh kind ign) Hok Hsays Hl) as (hd & F & E).
  exists hd. split; [exact F|]. rewrite E. apply no_body. rewrite (has_body_facts _ _ _ _ F). unfold cannot_have_body in Hb. destruct k as [a b c d|rm a code p].
  - destruct Hb as [B1 B2]. rewrite (hf_mode _ _ _ _ F), B1. unfold length_value in B2. destruct (named _ _ _); [reflexivity|discriminate].
  - apply bodyless_iff in Hb. rewrite Hb. reflexivity.
Qed.
Theorem C35_no_body_completes_at_blank_line rest pieces : cannot_have_body -> code_of k <> Some 100%Z -> length_readable (ignored ign) pairs ->
  concat pieces = head_text h ++ rest ->
  exists m, feed_all gz parser pieces = Ret (m, rest) /\ complete m = true /\ get_body m = [] /\
    get_message m = head_text h /\ h_kind (m_head m) = k /\ h_headers (m_head m) = pairs.
Proof.
  intros Hb H1 Hl Hp. destruct (no_body_parse rest Hb Hl) as (hd & F & E). eexists. split.
  - apply (deliver gz kind ign _ _ _ pieces Hgz E); [|  |exact Hp].
    + change (h_kind (m_head (set_mode (head_done parser h hd) End))) with (h_kind hd). rewrite (hf_kind _ _ _ _ F). exact H1.
    + split; [discriminate|]. split; [intros (z & r & X); destruct kind; discriminate|]. intros (X & _). discriminate.
  - split; [reflexivity|]. split; [destruct kind; reflexivity|]. split; [destruct kind; reflexivity|]. split; apply F.
Qed.

(** ** C36  bodies up to the end of the connection *)
Theorem C36_close_delimited_body body pieces : may_have_body k -> (exists rm, kind = Some rm) ->
  says_chunked (ignored ign) pairs = false -> length_value (ignored ign) pairs = None ->
  concat pieces = head_text h ++ body ->
  exists m, feed_all gz parser pieces = Ret (m, []) /\ complete m = false /\ feed_predict m = WantAll /\ get_body m = body /\
    get_message m = head_text h ++ body /\ h_kind (m_head m) = k /\ h_headers (m_head m) = pairs /\
    complete (close m) = true /\ get_body (close m) = body.
Proof.
  intros Hb [rm Hk] Hc Hv Hp.
  assert (Hl : length_readable (ignored ign) pairs) by (intros v X; congruence).
  destruct (head_result gz parser kind ign h k (parser_fresh kind ign) Hok Hsays Hl) as (hd & F & E).
  assert (Hr : exists rm a c p, k = KResponse rm a c p) by (subst kind; inversion Hsays; subst; eauto 6).
  specialize (E body). rewrite (close_body gz parser h hd k ign body F Hb Hr Hc Hv) in E.
  exists (in_close parser h hd body). split.
  - apply (deliver gz kind ign _ _ _ pieces Hgz E); [|  |exact Hp].
    + change (h_kind (m_head (in_close parser h hd body))) with (h_kind hd). rewrite (hf_kind _ _ _ _ F). apply body_code, Hb.
    + split; [discriminate|]. split; [intros (z & r & X); discriminate|]. intros (_ & _ & X). change (h_mode hd = MChunked) in X. rewrite (hf_mode _ _ _ _ F), Hc in X. cbn [mode_after] in X. destruct (named _ _ _); discriminate.
  - split; [reflexivity|]. split; [reflexivity|]. split; [apply (in_close_body gz)|]. split; [destruct kind; reflexivity|]. split; [apply F|]. split; [apply F|]. split; [reflexivity|]. apply (in_close_body gz).
Qed.
End Msg.
End M.
