(** Concrete messages that meet the hypotheses of C33-C39, C42, C43. *)
From Verif Require Import RegexFacts.
From Verif Require Export PropsHttpDecoded.
From Coq Require Import String List Lia ZArith.
Open Scope list_scope.

Definition fld (n v : string) : hfield := mkfield (B n) (SP :: B v) true [].
(** a response head with one folded field and LF-only line endings here and there *)
Definition demo_head (l : list hfield) : msg_head :=
  mkhead (B "HTTP/1.1 200 OK") true
    (mkfield (B "X-Note") (B "  one") false [(B "  two", true)] :: l) false.
Definition demo_kind (rm : string) : hkind := KResponse (B rm) (B "HTTP/1.1") 200 (Some (B "OK")).
Ltac listed := let X := fresh "X" in intro X; cbn in X; repeat (destruct X as [X|X]; [discriminate X|]); exact X.
Ltac is_field := split; [listed|split; [listed|split; [listed|split; [reflexivity|]]]].
Lemma demo_head_ok l : Forall field_ok l -> head_ok (demo_head l).
Proof.
  intro H. split; [listed|]. split; [discriminate|]. split; [discriminate|]. constructor; [|exact H].
  is_field. constructor; [|constructor]. split; [listed|reflexivity].
Qed.
Lemma demo_says rm l : start_says (Some (B rm)) (hd_start (demo_head l)) (demo_kind rm).
Proof.
  constructor. apply (status_full (B "HTTP/1.1") (B "200") (B "OK")); [listed|discriminate|reflexivity|].
  intros t c H. destruct t as [|x [|y [|z t]]]; cbn in H; try discriminate H. injection H as <- <-. reflexivity.
Qed.
Lemma demo_body : may_have_body (demo_kind "GET"). Proof. intros [H|[H|[H|H]]]; try discriminate. lia. Qed.
Example C33_hypotheses_met : let h := demo_head [fld "Content-Length" "5"] in
  head_ok h /\ start_says (Some (B "GET")) (hd_start h) (demo_kind "GET") /\ may_have_body (demo_kind "GET") /\
  says_chunked (ignored []) (head_pairs h) = false /\ length_value (ignored []) (head_pairs h) = Some (B "5") /\ gzip_coded [] (head_pairs h) = false /\
  exists m, feed_all gz_none (parser_for (Some (B "GET")) []) [head_text h ++ B "he"; B "lloHTTP"] = Ret (m, B "HTTP") /\ complete m = true /\ get_body m = B "hello" /\
    h_headers (m_head m) = [(B "X-Note", B "one two"); (B "Content-Length", B "5")].
Proof.
  intro h. assert (Hk : head_ok h) by (apply demo_head_ok; repeat constructor; listed). split; [exact Hk|]. split; [apply demo_says|]. split; [apply demo_body|]. split; [reflexivity|]. split; [reflexivity|]. split; [reflexivity|].
  destruct (C33_length_body_is_exact gz_none gz_none_ok (Some (B "GET")) [] h (demo_kind "GET") Hk (demo_says _ _) (B "5") (B "hello") (B "HTTP") [head_text h ++ B "he"; B "lloHTTP"] demo_body) as (m & M1 & M2 & M3 & _ & _ & M6); try reflexivity; [discriminate|].
  exists m. split; [exact M1|]. split; [exact M2|]. split; [exact M3|exact M6].
Qed.
(** a chunked body with an extension, a trailer, and odd line endings *)
Definition demo_chunks : chunked :=
  mkchunked [mkchunk (B "5") (B ";x=y") true (B "hello") false; mkchunk (B "0A") [] false (B "0123456789") true]
            (B "00") [] true [mkfield (B "X-Sum") (B " 15") true []] true.
Lemma demo_chunks_ok : chunked_ok demo_chunks.
Proof.
  split; [|split; [discriminate|split; [reflexivity|split; [split; [intros []|auto]|]]]].
  - constructor; [|constructor; [|constructor]].
    + split; [discriminate|]. split; [reflexivity|]. split; [split; [listed|right; eexists; reflexivity]|]. split; [discriminate|reflexivity].
    + split; [discriminate|]. split; [reflexivity|]. split; [split; [intros []|auto]|]. split; [discriminate|reflexivity].
  - constructor; [|constructor]. is_field. constructor.
Qed.
Example C34_hypotheses_met : let h := demo_head [fld "Transfer-Encoding" "chunked"; fld "Content-Length" "3"] in
  exists m, feed_all gz_none (parser_for (Some (B "GET")) []) [head_text h; chunked_text demo_chunks ++ B "HTTP"] = Ret (m, B "HTTP") /\ complete m = true /\
    get_body m = B "hello0123456789" /\ h_trailers (m_head m) = [(B "X-Sum", B "15")].
Proof.
  intro h. assert (Hk : head_ok h) by (apply demo_head_ok; repeat constructor; listed).
  destruct (C34_chunked_body_is_exact gz_none gz_none_ok (Some (B "GET")) [] h (demo_kind "GET") Hk (demo_says _ _) demo_chunks (B "HTTP") [head_text h; chunked_text demo_chunks ++ B "HTTP"] demo_body) as (m & M1 & M2 & M3 & _ & _ & _ & M6).
  - reflexivity.
  - intros v Hv. injection Hv as <-. discriminate.
  - apply demo_chunks_ok.
  - cbn [concat]. rewrite app_nil_r. reflexivity.
  - exists m. auto.
Qed.
Example C35_hypotheses_met : let h := demo_head [fld "Content-Length" "5000"] in
  exists m, feed_all gz_none (parser_for (Some (B "HEAD")) []) [head_text h ++ B "HTTP"] = Ret (m, B "HTTP") /\ complete m = true /\ get_body m = [].
Proof.
  intro h. assert (Hk : head_ok h) by (apply demo_head_ok; repeat constructor; listed).
  destruct (C35_no_body_completes_at_blank_line gz_none gz_none_ok (Some (B "HEAD")) [] h (demo_kind "HEAD") Hk (demo_says _ _) (B "HTTP") [head_text h ++ B "HTTP"]) as (m & M1 & M2 & M3 & _).
  - left. reflexivity.
  - discriminate.
  - intros v Hv. injection Hv as <-. discriminate.
  - cbn [concat]. rewrite app_nil_r. reflexivity.
  - exists m. auto.
Qed.
(** a request without a body *)
Example C35_request_hypotheses_met :
  let h := mkhead (B "GET /index.html HTTP/1.1") true [fld "Host" "example.org"] true in
  exists m, feed_all gz_none (parser_for None []) [head_text h ++ B "rest"] = Ret (m, B "rest") /\ complete m = true /\ get_body m = [].
Proof.
  intro h. assert (Hk : head_ok h) by (split; [listed|split; [discriminate|split; [discriminate|constructor; [is_field; constructor|constructor]]]]).
  destruct (C35_no_body_completes_at_blank_line gz_none gz_none_ok None [] h (KRequest (B "GET") (B "/index.html") (B "HTTP/1.1") false) Hk) with (rest := B "rest") (pieces := [head_text h ++ B "rest"]) as (m & M1 & M2 & M3 & _).
  - constructor. apply (request_path (B "GET") (B "/index.html") (B "HTTP/1.1")); [listed|listed|discriminate| |discriminate|].
    + intros t c H. repeat (destruct t as [|? t]; [cbn in H; try discriminate H; injection H as <-; reflexivity|cbn in H; injection H as _ H]). destruct t; discriminate H.
    + eexists _, _. split; [reflexivity|]. split; discriminate.
  - split; reflexivity.
  - discriminate.
  - intros v Hv. discriminate Hv.
  - cbn [concat]. rewrite app_nil_r. reflexivity.
  - exists m. auto.
Qed.
Example C36_hypotheses_met : let h := demo_head [] in
  exists m, feed_all gz_none (parser_for (Some (B "GET")) []) [head_text h; B "all "; B "of it"] = Ret (m, []) /\ complete m = false /\ complete (close m) = true /\ get_body (close m) = B "all of it".
Proof.
  intro h. assert (Hk : head_ok h) by (apply demo_head_ok; constructor).
  destruct (C36_close_delimited_body gz_none gz_none_ok (Some (B "GET")) [] h (demo_kind "GET") Hk (demo_says _ _) (B "all of it") [head_text h; B "all "; B "of it"] demo_body) as (m & M1 & M2 & _ & _ & _ & _ & _ & M7 & M8); try reflexivity; [eauto|].
  exists m. auto.
Qed.
(** an interim response, then a final one *)
Example C37_hypotheses_met : let h100 := mkhead (B "HTTP/1.1 100 Continue") true [] true in let h := demo_head [fld "Content-Length" "2"] in
  exists m, feed_all gz_none (parser_for (Some (B "GET")) []) [head_text h100 ++ head_text h; B "ok"] = Ret (m, []) /\ got_continue m = true /\ complete m = true /\ h_kind (m_head m) = demo_kind "GET".
Proof.
  intros h100 h.
  assert (A : exists m, feed gz_none (parser_for (Some (B "GET")) []) (head_text h ++ B "ok") = Ret (m, []) /\ complete m = true /\ m_interim m = [] /\ h_kind (m_head m) = demo_kind "GET" /\ orderly (Ret (m, @nil N))).
  { vm_compute. eexists. split; [reflexivity|]. split; [reflexivity|]. split; [reflexivity|]. split; [reflexivity|]. split; [discriminate|]. split; [intros (_ & e & He & _); discriminate He|]. split; [intros (X & _); discriminate X|]. intros (_ & X). discriminate X. }
  destruct A as (m & A1 & A2 & A3 & A4 & A5).
  destruct (C37_interim_response_is_skipped gz_none (B "GET") [] h100 (B "HTTP/1.1") (B "Continue")) with (rest := head_text h ++ B "ok") (m := m) (unread := @nil N) (pieces := [head_text h100 ++ head_text h; B "ok"]) as (m' & M1 & M2 & M3 & M4 & _).
  - split; [listed|]. split; [discriminate|]. split; [discriminate|constructor].
  - apply (status_full (B "HTTP/1.1") (B "100") (B "Continue")); [listed|discriminate|reflexivity|].
    intros t c H. repeat (destruct t as [|? t]; [cbn in H; try discriminate H; injection H as <-; reflexivity|cbn in H; injection H as _ H]). destruct t; discriminate H.
  - intros v Hv. discriminate Hv.
  - apply gz_none_ok.
  - exact A1.
  - exact A5.
  - exact A3.
  - cbn [concat]. rewrite app_nil_r, <- app_assoc. reflexivity.
  - exists m'. rewrite M3, M4. auto.
Qed.

(** a chunked response, written out decoded and read back *)
Definition gz_id (b : bytes) : option bytes := None.
Example C38_hypotheses_met : let h := demo_head [fld "Transfer-Encoding" "chunked"; fld "Server" "x"] in
  exists m, feed gz_none (parser_for (Some (B "GET")) []) (head_text h ++ chunked_text demo_chunks) = Ret (m, []) /\ finished gz_none m /\ h_kind (m_head m) = demo_kind "GET" /\ h_encoding (m_head m) = None /\ Forall (fun e => (0 <= snd e)%Z) (m_chunks m) /\ Forall (fun nv => strip (snd nv) = snd nv) (h_headers (m_head m) ++ h_trailers (m_head m)) /\ exists text, decoded_message gz_id gz_id m = Ret text /\ exists m', feed_all gz_none (parser_for (Some (B "GET")) []) [text] = Ret (m', []) /\ complete m' = true /\ get_body m' = B "hello0123456789" /\ h_headers (m_head m') = [(B "X-Note", B "one two"); (B "Server", B "x"); (B "X-Sum", B "15"); (B "Content-Length", B "15")].
Proof.
  intro h.
  assert (A : exists m, feed gz_none (parser_for (Some (B "GET")) []) (head_text h ++ chunked_text demo_chunks) = Ret (m, []) /\ complete m = true /\ h_kind (m_head m) = demo_kind "GET" /\ h_encoding (m_head m) = None /\ forallb (fun e => (0 <=? snd e)%Z) (m_chunks m) = true /\ get_body m = B "hello0123456789" /\ h_headers (m_head m) ++ h_trailers (m_head m) = [(B "X-Note", B "one two"); (B "Transfer-Encoding", B "chunked"); (B "Server", B "x"); (B "X-Sum", B "15")]).
  { vm_compute. eexists. split; [reflexivity|]. repeat split. }
  destruct A as (m & A1 & A2 & A3 & A4 & A5 & A6 & A7). exists m. split; [exact A1|].
  assert (F : finished gz_none m). { exists m. split; [|auto]. exists (Some (B "GET")), [], [(head_text h ++ chunked_text demo_chunks, [])]. econstructor; [exact A1|constructor]. }
  assert (P : Forall (fun e => (0 <= snd e)%Z) (m_chunks m)) by (apply Forall_forall; intros e He; rewrite forallb_forall in A5; apply Z.leb_le, A5, He).
  assert (T : Forall (fun nv => strip (snd nv) = snd nv) (h_headers (m_head m) ++ h_trailers (m_head m))) by (rewrite A7; repeat constructor).
  split; [exact F|]. split; [exact A3|]. split; [exact A4|]. split; [exact P|]. split; [exact T|].
  destruct (C38_decoded_message_parses_back gz_none gz_id gz_id gz_none_ok m (B "GET") (B "HTTP/1.1") (B "OK") 200 F A3 ltac:(lia) T demo_body (or_introl A4) P) as (text & D & R).
  exists text. split; [exact D|]. destruct (R [text]) as (m' & M1 & M2 & M3 & _ & M5); [cbn [concat]; apply app_nil_r|]. exists m'. rewrite A6 in M3. rewrite A7, A6 in M5. auto.
Qed.
(** a gzip body: the decompressor turns anything into "hello" *)
Example C39_hypotheses_met : let h := demo_head [fld "Content-Length" "3"; fld "Content-Encoding" "gzip"] in
  head_ok h /\ says_chunked (ignored []) (head_pairs h) = false /\ length_value (ignored []) (head_pairs h) = Some (B "3") /\ gzip_coded [] (head_pairs h) = true /\
  exists m, feed gz_demo (parser_for (Some (B "GET")) []) (head_text h ++ B "abcNEXT") = Ret (m, []) /\ complete m = true /\ get_body m = B "hello".
Proof.
  intro h. assert (Hk : head_ok h) by (apply demo_head_ok; repeat constructor; listed). split; [exact Hk|]. split; [reflexivity|]. split; [reflexivity|]. split; [reflexivity|].
  assert (H1 : says_chunked (ignored []) (head_pairs h) = false) by reflexivity. assert (H2 : length_value (ignored []) (head_pairs h) = Some (B "3")) by reflexivity. assert (H3 : gzip_coded [] (head_pairs h) = true) by reflexivity.
  assert (H4 : B "3" <> [] /\ forallb is_digit (B "3") = true) by (split; [discriminate|reflexivity]). assert (H5 : B "abcNEXT" <> []) by discriminate. assert (H6 : B "hello" <> []) by discriminate.
  assert (H7 : gz_demo (firstn (Z.to_nat (dec_value (B "3"))) (B "abcNEXT")) = Ret (B "hello")) by (vm_compute; reflexivity).
  destruct (C39_body_is_replaced gz_demo (Some (B "GET")) [] h (demo_kind "GET") (B "3") Hk (demo_says "GET" _) demo_body H1 H2 H4 H3 (B "abcNEXT") (B "hello") H5 H7 H6) as (m & M1 & M2 & M3 & _).
  exists m. auto.
Qed.
Example C42_hypotheses_met : let h := demo_head [fld "Transfer-Encoding" "chunked"] in
  not_a_size (B "<html>" ++ [LF]) /\
  exists m, feed_all gz_none (parser_for (Some (B "GET")) []) [head_text h; B "<html>" ++ [LF] ++ B "5"] = Ret (m, []) /\ get_body (close m) = B "<html>" ++ [LF] ++ B "5".
Proof.
  intro h. assert (Hk : head_ok h) by (apply demo_head_ok; repeat constructor; listed). split; [reflexivity|].
  assert (H1 : says_chunked (ignored []) (head_pairs h) = true) by reflexivity. assert (H2 : length_readable (ignored []) (head_pairs h)) by (intros v Hv; discriminate Hv).
  assert (H3 : no_lf (B "<html>")) by listed. assert (H4 : not_a_size (B "<html>" ++ [LF])) by reflexivity. assert (H5 : concat [head_text h] = head_text h) by (cbn [concat]; apply app_nil_r).
  destruct (C42_kept_as_is gz_none gz_none_ok (Some (B "GET")) [] h (demo_kind "GET") Hk (demo_says "GET" _) demo_body H1 H2 (B "<html>") (B "5") [head_text h] H3 H4 H5) as (m & _ & M1 & _ & _ & _ & _ & M2).
  exists m. auto.
Qed.
Example C43_hypotheses_met : let h := demo_head [fld "Content-Length" "3"; fld "Transfer-Encoding" "Chunked"] in
  exists m unread, feed gz_none (parser_for (Some (B "GET")) []) (head_text h ++ B "1") = Ret (m, unread) /\ body_is_chunked (m_head m) = true /\ body_length (m_head m) = None.
Proof.
  intro h. assert (Hk : head_ok h) by (apply demo_head_ok; repeat constructor; listed).
  destruct (feed gz_none (parser_for (Some (B "GET")) []) (head_text h ++ B "1")) as [[m unread]| |] eqn:E; [|vm_compute in E; discriminate E|vm_compute in E; discriminate E].
  exists m, unread. split; [reflexivity|]. destruct (C43_headers_in_order gz_none (Some (B "GET")) [] h (demo_kind "GET") Hk (demo_says _ _) (B "1") m unread) as (_ & _ & K1 & K2 & _); [discriminate| |exact E|].
  - intros v Hv. injection Hv as <-. discriminate.
  - split; [exact K1|exact K2].
Qed.
Example C43_bad_lines_met : let start := B "HTTP/1.1 200 OK" in
  feed gz_none (parser_for (Some (B "GET")) []) (start ++ eol true ++ fields_text [fld "A" "b"] ++ B "no colon here" ++ eol true ++ CRLF) = Raise EValueError /\
  feed gz_none (parser_for (Some (B "GET")) []) (start ++ eol true ++ B " folded" ++ eol true ++ CRLF) = Raise EIndexError.
Proof.
  intro start. assert (S : start_says (Some (B "GET")) start (demo_kind "GET")) by apply (demo_says "GET" []). split.
  - eapply C43_line_without_colon_raises; try exact S; try discriminate; try listed; [split; discriminate|constructor; [is_field; constructor|constructor]|reflexivity].
  - eapply C43_leading_continuation_raises; try exact S; try listed; [split; discriminate|reflexivity].
Qed.
