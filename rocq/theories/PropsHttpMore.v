(** Properties C37, C39, C42, C43: interim responses, gzip bodies, bodies falsely
    declared chunked, header lists. *)
From Verif Require Import RegexFacts.
From Verif Require Export PropsHttpMsg.
From Coq Require Import String List Lia ZArith.
Open Scope list_scope.

(** the header apart from the trailers *)
Definition core (h : hdr) : hdr := set_trailers h [].
Lemma trailer_core h line h' : add_trailer_line h line = Ret h' -> core h' = core h.
Proof.
  unfold add_trailer_line. destruct (is_folded line).
  - destruct (fold_last _ _); try discriminate. cbn [bind]. intro H. injection H as <-. reflexivity.
  - destruct (in_list _ _); [intro H; injection H as <-; reflexivity|]. destruct (split_field line); try discriminate. cbn [bind]. intro H. injection H as <-. reflexivity.
Qed.
Lemma pass_core m text m' t : chunk_pass m text = Ret (Some (m', t)) -> core (m_head m') = core (m_head m).
Proof.
  unfold chunk_pass. set (x := match m_reader m with Some (RChunk CStart st r) => _ | _ => _ end).
  destruct x as [[[m1 t1]|]| |] eqn:Ex; try discriminate. cbn [bind].
  assert (S1 : m_head m1 = m_head m).
  { unfold x in Ex. destruct (m_reader m) as [[[] s r|r|z r]|] eqn:Er; try (injection Ex as <- <-; reflexivity).
    unfold chunk_start in Ex. destruct (feed_line m text) as [[[ln|] t2] m2] eqn:El; apply feed_line_reader in El as (_ & El & _).
    - destruct (py_int _ _); [|destruct s; discriminate]. injection Ex as <- <-. exact El.
    - injection Ex as <- <-. exact El. }
  set (y := match m_reader m1 with Some (RChunk CChunk st r) => _ | _ => _ end). destruct y as [m2 t2] eqn:Ey.
  assert (S2 : m_head m2 = m_head m).
  { unfold y in Ey. destruct (m_reader m1) as [[[] s r|r|z r]|] eqn:Er; try (injection Ey as <- <-; exact S1). destruct (empty_text t1); [injection Ey as <- <-; exact S1|].
    unfold chunk_chunk in Ey. destruct (if (0 <? r)%Z then _ else _) as [[r1 t3] m3] eqn:E.
    assert (S3 : m_head m3 = m_head m1) by (destruct (0 <? r)%Z; injection E as <- <- <-; reflexivity).
    destruct (r1 =? 0)%Z; [|injection Ey as <- <-; cbn; congruence].
    destruct (feed_line m3 t3) as [[[ln|] t4] m4] eqn:El; apply feed_line_reader in El as (_ & El & _); injection Ey as <- <-; cbn; congruence. }
  clear Ex Ey x y. destruct (m_reader m2) as [[[] s r|r|z r]|] eqn:Er; try (intro H; injection H as <- <-; congruence).
  destruct (empty_text t2); [intro H; injection H as <- <-; congruence|].
  unfold chunk_trailer. destruct (feed_line m2 t2) as [[[ln|] t4] m4] eqn:El; apply feed_line_reader in El as (_ & El & _).
  - destruct (add_trailer_line (m_head m4) ln) as [h| |] eqn:E; try discriminate. cbn [bind]. intro H. injection H as <- <-. apply trailer_core in E. cbn. congruence.
  - cbn [bind]. intro H. injection H as <- <-. congruence.
Qed.
Lemma chunk_feed_core f : forall m text m' t, chunk_feed f m text = Ret (Some (m', t)) -> core (m_head m') = core (m_head m).
Proof.
  induction f as [|f IH]; intros m text m' t H; [discriminate|]. cbn [chunk_feed] in H. destruct text as [|x l]; [injection H as <- <-; reflexivity|].
  destruct (chunk_pass m (x :: l)) as [[[m1 t1]|]| |] eqn:E; try discriminate. cbn [bind] in H. apply pass_core in E.
  destruct (m_reader m1) as [[[] s r|r|z r]|]; try (apply IH in H; congruence). injection H as <- <-. exact E.
Qed.
Lemma feed_body_core m text m' t : feed_body m text = Ret (m', t) -> core (m_head m') = core (m_head m).
Proof.
  unfold feed_body.
  assert (Raw : forall x, raw_body x text = Ret (m', t) -> m_head m' = m_head x).
  { intros x. unfold raw_body. destruct (m_chunks x) as [|[o n] [|q l]]; try discriminate. intro X. injection X as <- <-. reflexivity. }
  destruct (m_reader m) as [[c s r|r|z r]|].
  - destruct (chunk_feed _ m text) as [[[m1 t1]|]| |] eqn:E; try discriminate; cbn [bind]; intro H; [injection H as <- <-; eapply chunk_feed_core, E|]. apply Raw in H. rewrite H. reflexivity.
  - intro H. injection H as H. unfold length_feed in H. destruct (if (0 <? r)%Z then _ else _) as [[r1 t1] m1] eqn:E. injection H as <- <-.
    assert (S3 : m_head m1 = m_head m) by (destruct (0 <? r)%Z; injection E as <- <- <-; reflexivity). destruct (r1 <=? 0)%Z; cbn; congruence.
  - intro H. injection H as H. unfold zip_feed in H. destruct (if (0 <? r)%Z then _ else _) as [[r1 t1] m1] eqn:E. injection H as <- <-.
    assert (S3 : m_head m1 = m_head m) by (destruct (0 <? r)%Z; injection E as <- <- <-; reflexivity). destruct (r1 <=? 0)%Z; cbn; congruence.
  - intro H. apply Raw in H. congruence.
Qed.
Lemma body_core gz m text m' t : m_mode m = Body \/ m_mode m = End -> base_feed gz m text = Ret (m', t) -> core (m_head m') = core (m_head m).
Proof.
  intros [Hm|Hm] H; [|rewrite BF_done in H by auto; injection H as <- <-; reflexivity].
  destruct text as [|c l]; [rewrite BF_nil in H; injection H as <- <-; reflexivity|]. rewrite BF_body in H by (try exact Hm; discriminate). eapply feed_body_core, H.
Qed.
Lemma feed_all_app gz a : forall m m' b, feed_all gz m a = Ret (m', []) -> feed_all gz m (a ++ b) = feed_all gz m' b.
Proof.
  induction a as [|p a IH]; intros m m' b H; cbn [feed_all app] in *; [injection H as <-; reflexivity|].
  destruct (feed gz m p) as [[m1 r]| |]; try discriminate. cbn [bind fst snd] in *. destruct r as [|c r]; [apply IH, H|discriminate].
Qed.

(** ** C43  the header list and what is taken from it *)
Section C43.
Variable gz : bytes -> outcome bytes.
Variables (kind : option bytes) (ign : list bytes) (h : msg_head) (k : hkind).
Hypothesis Hok : head_ok h.
Hypothesis Hsays : start_says kind (hd_start h) k.
Lemma head_kept rest m unread : code_of k <> Some 100%Z -> length_readable (ignored ign) (head_pairs h) ->
  feed gz (parser_for kind ign) (head_text h ++ rest) = Ret (m, unread) ->
  exists hd, head_facts hd k ign (head_pairs h) /\ core (m_head m) = core hd.
Proof.
  intros H1 Hl H. destruct (head_result gz _ kind ign h k (parser_fresh kind ign) Hok Hsays Hl) as (hd & F & E).
  exists hd. split; [exact F|].
    rewrite feed_resp, E in H. destruct (begin_body gz (head_done (parser_for kind ign) h hd) rest) as [m2| |] eqn:E2; try discriminate. cbn [bind] in H.
    pose proof (begin_body_head gz (head_done (parser_for kind ign) h hd) rest m2 E2) as Hh. pose proof (begin_body_mode gz (head_done (parser_for kind ign) h hd) rest m2 eq_refl E2) as Hm.
    destruct (base_feed gz m2 rest) as [[m3 t3]| |] eqn:E3; try discriminate. cbn [bind] in H. apply body_core in E3; [|exact Hm].
    unfold resp in H. cbn [fst snd] in H. destruct (continue_dec m3) as [[_ C]|_]; [exfalso|injection H as <- <-; rewrite E3, Hh; reflexivity].
    unfold status in C. assert (K : h_kind (m_head m3) = k) by (change (h_kind (core (m_head m3)) = k); rewrite E3, Hh; apply F). rewrite K in C. exact (H1 C).
Qed.
Theorem C43_headers_in_order rest m unread : code_of k <> Some 100%Z -> length_readable (ignored ign) (head_pairs h) ->
  feed gz (parser_for kind ign) (head_text h ++ rest) = Ret (m, unread) ->
  h_kind (m_head m) = k /\ h_headers (m_head m) = head_pairs h /\
  body_is_chunked (m_head m) = says_chunked (ignored ign) (head_pairs h) /\
  body_length (m_head m) = (if says_chunked (ignored ign) (head_pairs h) then None
                            else match length_value (ignored ign) (head_pairs h) with Some v => py_int 10 v | None => None end) /\
  h_encoding (m_head m) = coding (ignored ign) (head_pairs h) /\
  h_expect (m_head m) = existsb (contains (B "100-continue")) (named (ignored ign) (B "expect") (head_pairs h)).
Proof.
  intros H1 Hl H. destruct (head_kept rest m unread H1 Hl H) as (hd & F & C).
  assert (P : forall A (f : hdr -> A), (forall x, f (core x) = f x) -> f (m_head m) = f hd) by (intros A f Hf; rewrite <- Hf, C, Hf; reflexivity).
  assert (Md : h_mode (m_head m) = h_mode hd) by (apply P; reflexivity). assert (Ln : h_length (m_head m) = h_length hd) by (apply P; reflexivity).
  split; [rewrite (P _ h_kind) by reflexivity; apply F|]. split; [rewrite (P _ h_headers) by reflexivity; apply F|].
  unfold body_is_chunked, body_length. rewrite Md, Ln, (hf_mode _ _ _ _ F). unfold mode_after.
  destruct (says_chunked _ _) eqn:Es.
  - split; [reflexivity|]. split; [reflexivity|]. split; [rewrite (P _ h_encoding) by reflexivity; apply F|rewrite (P _ h_expect) by reflexivity; apply F].
  - pose proof (hf_length _ _ _ _ F Es) as Hlen. unfold length_value in *. destruct (named (ignored ign) (B "content-length") (head_pairs h)) as [|v l]; cbn [hd_error] in *.
    + split; [reflexivity|]. split; [reflexivity|]. split; [rewrite (P _ h_encoding) by reflexivity; apply F|rewrite (P _ h_expect) by reflexivity; apply F].
    + destruct (Hlen v eq_refl) as (z & Z1 & Z2). rewrite Z1, Z2. split; [reflexivity|]. split; [reflexivity|]. split; [rewrite (P _ h_encoding) by reflexivity; apply F|rewrite (P _ h_expect) by reflexivity; apply F].
Qed.
(** ** C57  keep_alive *)
Theorem C57_keep_alive rest m unread : code_of k <> Some 100%Z -> length_readable (ignored ign) (head_pairs h) ->
  feed gz (parser_for kind ign) (head_text h ++ rest) = Ret (m, unread) ->
  h_keep_alive (m_head m) = says_keep_alive (ignored ign) (head_pairs h).
Proof.
  intros H1 Hl H. destruct (head_kept rest m unread H1 Hl H) as (hd & F & C).
  change (h_keep_alive (core (m_head m)) = says_keep_alive (ignored ign) (head_pairs h)). rewrite C. apply (hf_keep _ _ _ _ F).
Qed.
End C43.
(** A header line without a colon, and a continuation line before any header, are
    refused. *)
Section C43bad.
Variable gz : bytes -> outcome bytes.
Variables (kind : option bytes) (ign : list bytes) (start : bytes) (k : hkind) (b : bool).
Hypothesis Hs : no_lf start.
Hypothesis Hn : start <> [] /\ start <> [CR].
Hypothesis Hsays : start_says kind start k.
Lemma after_start rest : exists h1, h_headers h1 = [] /\ h_kind h1 = k /\
  base_feed gz (parser_for kind ign) (start ++ eol b ++ rest) = base_feed gz (set_mode (set_head (took (parser_for kind ign) (start ++ eol b)) h1) Headers) rest.
Proof.
  assert (S : exists h1, set_start_line (m_head (parser_for kind ign)) (start ++ eol b) = Ret h1 /\ h_headers h1 = [] /\ h_kind h1 = k).
  { destruct Hsays as [l method target version text Hr|rm l version code phrase Hr].
    - erewrite start_request; [|reflexivity|exact Hr]. eexists. split; [reflexivity|]. cbn. auto.
    - destruct (start_status rm (B "HTTP/1.1") 0 None l b version code phrase (start_hdr (Some rm) ign) eq_refl Hr) as (kk & E & _). cbn [parser_for new_msg m_head]. rewrite E. eexists. split; [reflexivity|]. cbn. auto. }
  destruct S as (h1 & S1 & S2 & S3). exists h1. split; [exact S2|]. split; [exact S3|].
  pose proof (parser_fresh kind ign) as (P1 & P2 & _).
  rewrite BF_start; [|exact P1|apply flush_bwf, P2|apply line_ne]. rewrite line_cut by exact Hs. rewrite (flush_pending _ P2). cbn [app]. cbv zeta. rewrite <- app_assoc, <- eol_lf.
  replace (in_list (start ++ eol b) NEWLINES) with false; [rewrite S1; reflexivity|]. symmetry. apply Bool.not_true_iff_false. rewrite newlines_iff. destruct Hn as [N1 N2].
  intros X. destruct b; cbn [eol] in X.
  - destruct X as [X|X]; [apply (app_inv_tail CRLF start []) in X; contradiction|]. apply (f_equal (@List.length N)) in X. rewrite app_length in X. cbn in X. lia.
  - destruct X as [X|X]; [apply (app_inv_tail [LF] start [CR]) in X; contradiction|]. apply (app_inv_tail [LF] start []) in X. contradiction.
Qed.
Theorem C43_line_without_colon_raises fs line b2 rest : Forall field_ok fs -> no_lf line -> ~ In COLON line -> starts_blank line = false -> line <> [] -> line <> [CR] ->
  feed gz (parser_for kind ign) (start ++ eol b ++ fields_text fs ++ line ++ eol b2 ++ rest) = Raise EValueError.
Proof.
  intros Hf Hl Hc Hb Hx Hy. rewrite feed_resp. destruct (after_start (fields_text fs ++ line ++ eol b2 ++ rest)) as (h1 & S2 & S3 & ->).
  rewrite BF_fields by (try reflexivity; exact Hf). rewrite BF_header_line by (try reflexivity; exact Hl). unfold add_header_line.
  rewrite is_folded_iff, starts_blank_app by auto. replace (in_list (line ++ eol b2) NEWLINES) with false.
  - unfold split_field. replace (split_once COLON (line ++ eol b2)) with (@None (bytes * bytes)); [reflexivity|]. symmetry. apply split_once_none. intro X. apply in_app_or in X as [X|X]; [auto|].
    destruct b2; cbn in X; destruct X as [X|X]; try discriminate; try contradiction. destruct X as [X|X]; [discriminate|contradiction].
  - symmetry. apply Bool.not_true_iff_false. rewrite newlines_iff. intros X. destruct b2; cbn [eol] in X.
    + destruct X as [X|X]; [apply (app_inv_tail CRLF line []) in X; contradiction|]. apply (f_equal (@List.length N)) in X. rewrite app_length in X. cbn in X. lia.
    + destruct X as [X|X]; [apply (app_inv_tail [LF] line [CR]) in X; contradiction|]. apply (app_inv_tail [LF] line []) in X. contradiction.
Qed.
Theorem C43_leading_continuation_raises line b2 rest : no_lf line -> starts_blank line = true ->
  feed gz (parser_for kind ign) (start ++ eol b ++ line ++ eol b2 ++ rest) = Raise EIndexError.
Proof.
  intros Hl Hb. rewrite feed_resp. destruct (after_start (line ++ eol b2 ++ rest)) as (h1 & S2 & S3 & ->).
  rewrite BF_header_line by (try reflexivity; exact Hl). unfold add_header_line. destruct (fold_line line b2 Hb) as (F1 & _ & _). rewrite F1.
  cbn [set_mode set_head m_head]. rewrite S2. reflexivity.
Qed.
End C43bad.

(** ** C37  100 Continue *)
Section C37.
Variable gz : bytes -> outcome bytes.
Variables (rm : bytes) (ign : list bytes) (h : msg_head) (version phrase : bytes).
Hypothesis Hok : head_ok h.
Hypothesis Hline : status_line (hd_start h) version 100 phrase.
Hypothesis Hl : length_readable (ignored ign) (head_pairs h).
Lemma continue_parse rest : exists hd, h_kind hd = KResponse rm version 100 (Some phrase) /\ h_headers hd = head_pairs h /\
  feed gz (parser_for (Some rm) ign) (head_text h ++ rest) = omap (shp (head_text h) [hd]) (base_feed gz (parser_for (Some rm) []) rest).
Proof.
  destruct (no_body_parse gz (Some rm) ign h (KResponse rm version 100 (Some phrase)) Hok) with (x := rest) as (hd & F & E).
  { constructor. exact Hline. } { right. left. lia. } { exact Hl. }
  exists hd. split; [apply F|]. split; [apply F|]. rewrite feed_resp, E. cbn [bind]. unfold resp. cbn [fst snd].
  match goal with |- (if continue_dec ?M then _ else _) = _ => destruct (continue_dec M) as [C|C] end.
  - unfold after_continue. cbn [set_mode head_done set_head m_head]. rewrite (hf_kind _ _ _ _ F).
    rewrite <- base_feed_shift. f_equal. unfold HttpShift.shift, head_done, parser_for, new_msg. cbn [m_buf m_off m_head m_chunks m_mode m_reader m_interim map app took set_buf set_mode set_head start_hdr].
    rewrite app_nil_r, Nat.add_0_r. reflexivity.
  - exfalso. apply C. split; [reflexivity|]. unfold status. cbn [set_mode head_done set_head m_head]. rewrite (hf_kind _ _ _ _ F). reflexivity.
Qed.
Lemma feed_alone rest m r : feed gz (parser_for (Some rm) []) rest = Ret (m, r) -> m_interim m = [] -> base_feed gz (parser_for (Some rm) []) rest = Ret (m, r).
Proof.
  rewrite feed_resp. destruct (base_feed gz (parser_for (Some rm) []) rest) as [[m1 t1]| |] eqn:E; try discriminate. cbn [bind]. unfold resp. cbn [fst snd].
  destruct (continue_dec m1) as [C|C]; [|auto]. intros H Hi. exfalso. destruct C as [_ C]. unfold status in C. unfold after_continue in H. destruct (h_kind (m_head m1)) eqn:Ek; [discriminate|].
  set (m0 := mkmsg (m_buf m1) (m_off m1) (new_response_hdr request_method []) [] Start None []).
  match type of H with base_feed gz ?M _ = _ => replace M with (HttpShift.shift [] (m_interim m1 ++ [m_head m1]) m0) in H end.
  - rewrite base_feed_shift in H. destruct (base_feed gz m0 t1) as [[m2 t2]| |]; try discriminate. cbn [omap] in H; unfold shp in H; cbn [fst snd] in H. injection H as <- <-. cbn [HttpShift.shift m_interim] in Hi.
    apply app_eq_nil in Hi as [Hi _]. apply app_eq_nil in Hi as [_ Hi]. discriminate.
  - unfold m0, HttpShift.shift. cbn. rewrite app_nil_r. reflexivity.
Qed.
(** The final response is parsed as if it had come alone; the interim response is
    recorded (and the list of headers to ignore is forgotten). *)
Theorem C37_interim_response_is_skipped rest m unread pieces : gz_ok gz ->
  feed gz (parser_for (Some rm) []) rest = Ret (m, unread) -> orderly (Ret (m, unread)) -> m_interim m = [] ->
  concat pieces = head_text h ++ rest ->
  exists m', feed_all gz (parser_for (Some rm) ign) pieces = Ret (m', unread) /\ got_continue m' = true /\
    complete m' = complete m /\ m_head m' = m_head m /\ get_message m' = head_text h ++ get_message m /\
    (Forall (fun c => 0 <= snd c)%Z (m_chunks m) -> get_body m' = get_body m).
Proof.
  intros Hgz Hf Ho Hi Hp. apply feed_alone in Hf; [|exact Hi]. destruct (continue_parse rest) as (hd & K1 & K2 & E). rewrite Hf in E. cbn [omap] in E; unfold shp in E; cbn [fst snd] in E.
  exists (HttpShift.shift (head_text h) [hd] m). split; [|split; [reflexivity|split; [reflexivity|split; [reflexivity|split; [reflexivity|apply shift_body]]]]].
  rewrite <- E, <- Hp. apply C32_new_parser; [exact Hgz|]. rewrite Hp, E. exact Ho.
Qed.
(** but only once per call: the second of two interim responses is taken for the final
    one *)
Theorem C37_second_interim_is_not_skipped h2 version2 phrase2 rest : head_ok h2 -> status_line (hd_start h2) version2 100 phrase2 -> length_readable [] (head_pairs h2) ->
  exists m, feed gz (parser_for (Some rm) ign) (head_text h ++ head_text h2 ++ rest) = Ret (m, rest) /\ complete m = true /\
    h_kind (m_head m) = KResponse rm version2 100 (Some phrase2) /\ List.length (m_interim m) = 1.
Proof.
  intros H1 H2 H3. destruct (continue_parse (head_text h2 ++ rest)) as (hd & K1 & K2 & E).
  destruct (no_body_parse gz (Some rm) [] h2 (KResponse rm version2 100 (Some phrase2)) H1) with (x := rest) as (hd2 & F & E2).
  { constructor. exact H2. } { right. left. lia. } { exact H3. }
  rewrite E2 in E. cbn [omap] in E; unfold shp in E; cbn [fst snd] in E. eexists. split; [exact E|]. split; [reflexivity|]. split; [apply F|reflexivity].
Qed.
End C37.

(** ** C42  a body falsely declared chunked *)
(** the line is not a chunk size: what comes before the first semicolon is no
    hexadecimal integer *)
Definition not_a_size (line : bytes) : Prop :=
  py_int 16 (match split_once 59 line with Some (a, _) => a | None => line end) = None.
Section C42.
Variable gz : bytes -> outcome bytes.
Hypothesis Hgz : gz_ok gz.
Variables (kind : option bytes) (ign : list bytes) (h : msg_head) (k : hkind).
Hypothesis Hok : head_ok h.
Hypothesis Hsays : start_says kind (hd_start h) k.
Hypothesis Hbody : may_have_body k.
Hypothesis Hchunked : says_chunked (ignored ign) (head_pairs h) = true.
Hypothesis Hl : length_readable (ignored ign) (head_pairs h).
Lemma at_chunks : exists m0, (forall x, base_feed gz (parser_for kind ign) (head_text h ++ x) = base_feed gz m0 x) /\
  m_mode m0 = Body /\ m_reader m0 = Some (RChunk CStart true 0) /\ flush m0 /\ m_buf m0 = head_text h /\ m_chunks m0 = [] /\ code_of (h_kind (m_head m0)) <> Some 100%Z /\ h_mode (m_head m0) = MChunked.
Proof.
  destruct (head_result gz _ kind ign h k (parser_fresh kind ign) Hok Hsays Hl) as (hd & F & E).
  assert (Hm : h_mode hd = MChunked) by (rewrite (hf_mode _ _ _ _ F), Hchunked; reflexivity).
  exists (set_creader (head_done (parser_for kind ign) h hd) CStart true 0). split.
  - intro x. rewrite E. unfold begin_body. cbn [head_done m_head set_mode set_head]. rewrite (has_body_true _ _ _ _ F Hbody) by (left; congruence). cbn [negb]. unfold body_is_chunked. rewrite Hm. reflexivity.
  - split; [reflexivity|]. split; [reflexivity|]. split; [reflexivity|]. split; [destruct kind; reflexivity|]. split; [destruct kind; reflexivity|]. split; [|exact Hm].
    change (code_of (h_kind hd) <> Some 100%Z). rewrite (hf_kind _ _ _ _ F). apply body_code, Hbody.
Qed.
Lemma head_arrives m0 pieces : (forall x, base_feed gz (parser_for kind ign) (head_text h ++ x) = base_feed gz m0 x) ->
  m_mode m0 = Body -> m_reader m0 = Some (RChunk CStart true 0) -> code_of (h_kind (m_head m0)) <> Some 100%Z ->
  concat pieces = head_text h -> feed_all gz (parser_for kind ign) pieces = Ret (m0, []).
Proof.
  intros E Hm Hr Hc Hp. specialize (E []). rewrite BF_nil, app_nil_r in E. apply (deliver gz kind ign _ _ _ pieces Hgz E Hc); [|exact Hp].
  split; [congruence|]. split; [intros (z & r & X); congruence|]. intros (_ & X & _). congruence.
Qed.
Theorem C42_kept_as_is line rest hp : no_lf line -> not_a_size (line ++ [LF]) -> concat hp = head_text h ->
  exists m, feed gz (parser_for kind ign) (head_text h ++ line ++ [LF] ++ rest) = Ret (m, []) /\
    feed_all gz (parser_for kind ign) (hp ++ [line ++ [LF] ++ rest]) = Ret (m, []) /\
    complete m = false /\ feed_predict m = WantAll /\ get_body m = line ++ [LF] ++ rest /\ complete (close m) = true /\ get_body (close m) = line ++ [LF] ++ rest.
Proof.
  intros Hn Hs Hp. destruct at_chunks as (m0 & E & M1 & M2 & M3 & M4 & M5 & M6 & M7).
  set (x := line ++ [LF] ++ rest). assert (Hx : x <> []) by (unfold x; destruct line; discriminate).
  set (m := mkmsg (head_text h ++ x) (List.length (head_text h ++ x)) (m_head m0) [(List.length (head_text h), Z.of_nat (List.length x))] Body None (m_interim m0)).
  assert (R : base_feed gz m0 x = Ret (m, [])).
  { rewrite BF_chunk; [|exact M1|eexists _, _, _; exact M2]. rewrite (CF_start m0 true 0) by (try exact M2; try exact Hx; apply flush_bwf, M3).
    replace (split_once LF x) with (Some (line, rest)) by (symmetry; apply split_once_hit; exact Hn).
    rewrite (flush_pending _ M3). cbn [app]. unfold chunk_size. unfold not_a_size in Hs. rewrite Hs. unfold cf_result. cbn [bind].
    unfold raw_body. cbn [set_chunks set_reader m_chunks]. unfold m, set_buf. cbn [m_buf m_off m_head m_chunks m_mode m_reader m_interim]. unfold set_chunks, set_reader. cbn [m_buf m_off m_head m_chunks m_mode m_reader m_interim]. rewrite M4, M1. reflexivity. }
  assert (Fd : forall p, base_feed gz p x = Ret (m, []) -> feed gz p x = Ret (m, [])).
  { intros p Hb. rewrite feed_resp, Hb. cbn [bind]. unfold resp. cbn [fst snd]. destruct (continue_dec m) as [[C _]|_]; [discriminate|reflexivity]. }
  exists m. split; [|split; [|split; [reflexivity|split; [reflexivity|]]]].
  - rewrite feed_resp, E, R. cbn [bind]. unfold resp. cbn [fst snd]. destruct (continue_dec m) as [[C _]|_]; [discriminate|reflexivity].
  - rewrite (feed_all_app gz hp _ m0) by (apply head_arrives; assumption). cbn [feed_all]. rewrite (Fd m0 R). reflexivity.
  - assert (G : get_body m = x) by (unfold get_body, m; cbn [m_chunks m_buf map fst snd concat]; rewrite app_nil_r; apply slice_to_end; lia).
    split; [exact G|]. split; [reflexivity|exact G].
Qed.
Theorem C42_split_line_raises l1 l2 rest hp more : l1 <> [] -> no_lf l1 -> no_lf l2 -> not_a_size (l1 ++ l2 ++ [LF]) -> concat hp = head_text h ->
  feed_all gz (parser_for kind ign) (hp ++ [l1; l2 ++ [LF] ++ rest] ++ more) = Raise EValueError.
Proof.
  intros H1 Hn1 Hn2 Hs Hp. destruct at_chunks as (m0 & E & M1 & M2 & M3 & M4 & M5 & M6 & M7).
  rewrite (feed_all_app gz hp _ m0) by (apply head_arrives; assumption). cbn [feed_all app].
  pose proof (flush_bwf _ M3) as Hb. set (m1 := set_creader (pushed m0 l1) CStart false 0).
  assert (Hb1 : bwf m1) by (apply bwf_creader, bwf_pushed; [exact Hb|exact Hn1]).
  assert (R1 : base_feed gz m0 l1 = Ret (m1, [])).
  { rewrite BF_chunk; [|exact M1|eexists _, _, _; exact M2]. rewrite (CF_start m0 true 0) by (try exact M2; try exact H1; exact Hb). replace (split_once LF l1) with (@None (bytes * bytes)) by (symmetry; apply split_once_none, Hn1). reflexivity. }
  rewrite feed_resp, R1. cbn [bind]. unfold resp. cbn [fst snd].
  assert (Hm1 : m_mode m1 = Body) by exact M1.
  destruct (continue_dec m1) as [[C _]|_]; [unfold complete in C; rewrite Hm1 in C; discriminate|]. cbn [bind fst snd].
  rewrite feed_resp. set (x := l2 ++ LF :: rest). assert (Hx : x <> []) by (unfold x; destruct l2; discriminate).
  rewrite BF_chunk; [|exact Hm1|eexists _, _, _; reflexivity]. rewrite (CF_start m1 false 0) by (try exact Hx; try exact Hb1; reflexivity).
  replace (split_once LF x) with (Some (l2, rest)) by (symmetry; apply split_once_hit; exact Hn2).
  assert (Pm : pending m1 = l1). { change (pending m1) with (pending (pushed m0 l1)). rewrite pending_pushed by apply Hb. rewrite (flush_pending _ M3). reflexivity. }
  rewrite Pm. unfold chunk_size. unfold not_a_size in Hs. rewrite Hs. reflexivity.
Qed.
(** ** C40, on messages: a negative first chunk size followed by anything hangs *)
Theorem C40_negative_size_hangs line rest pieces n : no_lf line -> ~ In 59%N line -> (n < 0)%Z -> rest <> [] ->
  py_int 16 (line ++ [LF]) = Some n ->
  concat pieces = head_text h ++ line ++ [LF] ++ rest -> feed_all gz (parser_for kind ign) pieces = Diverge.
Proof.
  intros Hn Hsc Hneg Hr Hi Hp. destruct at_chunks as (m0 & E & M1 & M2 & M3 & M4 & M5 & M6 & M7).
  assert (D : feed gz (parser_for kind ign) (concat pieces) = Diverge).
  { rewrite feed_resp, Hp, E. rewrite BF_chunk; [|exact M1|eexists _, _, _; exact M2].
    rewrite (CF_start m0 true 0) by (try exact M2; try (apply flush_bwf, M3); destruct line; discriminate).
    change (line ++ [LF] ++ rest) with (line ++ eol false ++ rest). rewrite line_cut by exact Hn. cbn [before_lf]. rewrite app_nil_r, (flush_pending _ M3). cbn [app].
    unfold chunk_size. replace (split_once 59 (line ++ [LF])) with (@None (bytes * bytes)).
    - rewrite Hi. rewrite CF_stuck; [reflexivity| |exact Hr]. exists false, n. split; [|exact Hneg]. cbn. replace (n =? 0)%Z with false by lia. reflexivity.
    - symmetry. apply split_once_none. intro X. apply in_app_or in X as [X|[X|[]]]; [auto|discriminate]. }
  rewrite <- D. apply C32_new_parser; [exact Hgz|]. rewrite D. exact I.
Qed.
End C42.
