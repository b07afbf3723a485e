(** The parser on well-formed message bodies. *)
From Verif Require Import RegexFacts.
From Verif Require Export HttpFrame.
From Coq Require Import String List Lia ZArith.
Open Scope list_scope.

(** ** slices *)
Lemma slice_at (a d c : bytes) : slice (a ++ d ++ c) (List.length a) (Z.of_nat (List.length a) + Z.of_nat (List.length d)) = d.
Proof.
  unfold slice. replace (_ <? 0)%Z with false by (symmetry; apply Z.ltb_ge; lia). rewrite skipn_app, skipn_all, Nat.sub_diag. cbn [skipn app].
  replace (Z.to_nat (Z.of_nat (List.length a) + Z.of_nat (List.length d)) - List.length a) with (List.length d) by lia.
  rewrite firstn_app, firstn_all, Nat.sub_diag. cbn [firstn]. apply app_nil_r.
Qed.
Lemma slice_at0 (a c : bytes) : slice (a ++ c) (List.length a) (Z.of_nat (List.length a) + 0) = [].
Proof. apply (slice_at a [] c). Qed.
Lemma slice_to_end (a d : bytes) n : (Z.of_nat (List.length d) <= n)%Z -> slice (a ++ d) (List.length a) (Z.of_nat (List.length a) + n) = d.
Proof.
  intro H. unfold slice. replace (_ <? 0)%Z with false by (symmetry; apply Z.ltb_ge; lia). rewrite skipn_app, skipn_all, Nat.sub_diag. cbn [skipn app].
  apply firstn_all2. lia.
Qed.
Lemma slice_grow (a b : bytes) o n : (0 <= n)%Z -> (Z.of_nat o + n <= Z.of_nat (List.length a))%Z -> slice (a ++ b) o (Z.of_nat o + n) = slice a o (Z.of_nat o + n).
Proof.
  intros H1 H2. unfold slice. replace (_ <? 0)%Z with false by (symmetry; apply Z.ltb_ge; lia).
  rewrite skipn_app. rewrite firstn_app. rewrite skipn_length. replace (Z.to_nat (Z.of_nat o + n) - o - (List.length a - o)) with 0 by lia. apply app_nil_r.
Qed.

(** ** parsers at the start of a message *)
Definition start_hdr (kind : option bytes) (ign : list bytes) : hdr :=
  match kind with None => new_request_hdr ign | Some rm => new_response_hdr rm ign end.
(** RequestMessage(ignore_headers), or ResponseMessage(request, ignore_headers) for a
    request with the given method *)
Definition parser_for (kind : option bytes) (ign : list bytes) : msg := new_msg (start_hdr kind ign).
Definition fresh_at (m : msg) (kind : option bytes) (ign : list bytes) : Prop :=
  m_mode m = Start /\ flush m /\ m_chunks m = [] /\ m_reader m = None /\ m_head m = start_hdr kind ign.
Lemma parser_fresh kind ign : fresh_at (parser_for kind ign) kind ign. Proof. repeat split; destruct kind; reflexivity. Qed.
Lemma fresh_hinv m kind ign : fresh_at m kind ign -> hinv m.
Proof. intros (H1 & H2 & H3 & H4 & H5). split; [apply flush_bwf; exact H2|]. split; [auto|]. split; [congruence|]. intro X. contradiction. Qed.
Lemma fresh_continue m kind ign : fresh_at m kind ign -> ~ continue_done m.
Proof. intros (H1 & _) [C _]. unfold complete in C. rewrite H1 in C. discriminate. Qed.

Inductive start_says : option bytes -> bytes -> hkind -> Prop :=
| says_request l method target version text : request_line l method target version text -> start_says None l (KRequest method target version text)
| says_response rm l version code phrase : status_line l version code phrase -> start_says (Some rm) l (KResponse rm version code (Some phrase)).
Definition may_have_body (k : hkind) : Prop := match k with KResponse rm _ code _ => ~ bodyless rm code | KRequest _ _ _ _ => True end.

Lemma bodyless_iff rm code : method_no_body rm || code_no_body code = true <-> bodyless rm code.
Proof.
  unfold bodyless, method_no_body, code_no_body, in_list. cbn [existsb]. rewrite Bool.orb_false_r, Bool.orb_true_iff, bytes_eqb_eq.
  split; intros [H|H]; auto; right; lia.
Qed.
(** the header object after the blank line *)
Record head_facts (hd : hdr) (k : hkind) (ign : list bytes) (pairs : list (bytes * bytes)) : Prop := mkfacts {
  hf_kind : h_kind hd = k;
  hf_headers : h_headers hd = pairs;
  hf_trailers : h_trailers hd = [];
  hf_mode : h_mode hd = mode_after MClose (says_chunked (ignored ign) pairs) (named (ignored ign) (B "content-length") pairs);
  hf_length : says_chunked (ignored ign) pairs = false -> forall v, length_value (ignored ign) pairs = Some v -> exists z, py_int 10 v = Some z /\ h_length hd = Some z;
  hf_coding : h_encoding hd = coding (ignored ign) pairs;
  hf_expect : h_expect hd = existsb (contains (B "100-continue")) (named (ignored ign) (B "expect") pairs);
  hf_keep : h_keep_alive hd = says_keep_alive (ignored ign) pairs }.
Section G.
Variable gz : bytes -> outcome bytes.
Lemma head_result m kind ign h k : fresh_at m kind ign -> head_ok h -> start_says kind (hd_start h) k -> length_readable (ignored ign) (head_pairs h) ->
  exists hd, head_facts hd k ign (head_pairs h) /\
  forall rest, base_feed gz m (head_text h ++ rest) = bind (begin_body gz (head_done m h hd) rest) (fun m2 => base_feed gz m2 rest).
Proof.
  intros (F1 & F2 & F3 & F4 & F5) Hok Hs Hl.
  assert (S : exists h1, set_start_line (m_head m) (hd_start h ++ eol (hd_start_crlf h)) = Ret h1 /\ h_kind h1 = k /\ h_headers h1 = [] /\ h_trailers h1 = [] /\ h_mode h1 = MClose /\
    h_encoding h1 = None /\ h_expect h1 = false /\ h_ignore h1 = ignored ign /\ h_keep_alive h1 = false).
  { rewrite F5. destruct Hs as [l method target version text Hr|rm l version code phrase Hr].
    - erewrite start_request; [|reflexivity|exact Hr]. eexists. split; [reflexivity|]. cbn. auto 9.
    - destruct (start_status rm (B "HTTP/1.1") 0 None l (hd_start_crlf h) version code phrase (start_hdr (Some rm) ign) eq_refl Hr) as (kk & E & Hkk). rewrite E. eexists. split; [reflexivity|]. cbn. destruct Hkk as [-> | ->]; auto 9. }
  destruct S as (h1 & S1 & S2 & S3 & S4 & S5 & S6 & S7 & S8 & S9).
  set (h1' := set_headers h1 (h_headers h1 ++ head_pairs h)).
  destruct (note_headers_total (head_pairs h) h1') as [hd E]; [right; change (h_ignore h1') with (h_ignore h1); rewrite S8; exact Hl|].
  exists hd. split.
  - destruct (note_headers_spec _ _ _ E) as ((N1 & N2 & N3 & N4) & N5 & N6 & N7 & N8 & N9).
    change (h_ignore h1') with (h_ignore h1) in *. change (h_mode h1') with (h_mode h1) in *. rewrite S8, S5 in *. split.
    + rewrite N1. exact S2.
    + rewrite N2. unfold h1'. cbn. rewrite S3. reflexivity.
    + rewrite N3. exact S4.
    + exact N5.
    + auto.
    + rewrite N8. change (h_encoding h1') with (h_encoding h1). rewrite S6. destruct (coding _ _); reflexivity.
    + rewrite N9. change (h_expect h1') with (h_expect h1). rewrite S7. reflexivity.
    + rewrite (note_headers_keep _ _ _ E), keep_find. change (h_ignore h1') with (h_ignore h1).
      change (h_keep_alive h1') with (h_keep_alive h1). rewrite S8, S9. reflexivity.
  - intro rest. rewrite BF_head by assumption. rewrite S1. cbn [bind]. fold h1'. rewrite S3. cbn [app]. rewrite E. reflexivity.
Qed.
Lemma has_body_facts hd k ign pairs : head_facts hd k ign pairs ->
  has_body hd = match k with
    | KRequest _ _ _ _ => match h_mode hd with MClose => false | _ => true end
    | KResponse rm _ code _ => negb (method_no_body rm || code_no_body code) end.
Proof. intros F. unfold has_body. rewrite (hf_kind _ _ _ _ F). destruct k; [reflexivity|]. rewrite Bool.negb_orb. reflexivity. Qed.
Lemma has_body_true hd k ign pairs : head_facts hd k ign pairs -> may_have_body k -> h_mode hd <> MClose \/ (exists rm a b c, k = KResponse rm a b c) -> has_body hd = true.
Proof.
  intros F Hm Hx. rewrite (has_body_facts _ _ _ _ F). destruct k as [a b c d|rm a code p].
  - destruct (h_mode hd); try reflexivity. destruct Hx as [X|(rm & x & y & z & X)]; [contradiction|discriminate].
  - cbn in Hm. destruct (method_no_body rm || code_no_body code) eqn:E; [|reflexivity]. apply bodyless_iff in E. contradiction.
Qed.

(** ** length-delimited bodies *)
(** the parser in a body of [n] bytes after reading [b] *)
Definition in_length (m : msg) (h : msg_head) (hd : hdr) (n : Z) (b : bytes) : msg :=
  mkmsg (m_buf m ++ head_text h ++ b) (List.length (m_buf m ++ head_text h ++ b)) hd [(List.length (m_buf m ++ head_text h), n)]
        (if (Z.of_nat (List.length b) =? n)%Z then End else Body) (Some (RLength (n - Z.of_nat (List.length b)))) (m_interim m).
Lemma length_body m h hd k ign n b x : head_facts hd k ign (head_pairs h) -> may_have_body k ->
  says_chunked (ignored ign) (head_pairs h) = false -> (exists v, length_value (ignored ign) (head_pairs h) = Some v /\ py_int 10 v = Some n) ->
  gzip_coded ign (head_pairs h) = false ->
  Z.of_nat (List.length b) = n \/ (Z.of_nat (List.length b) < n)%Z /\ x = [] ->
  bind (begin_body gz (head_done m h hd) (b ++ x)) (fun m2 => base_feed gz m2 (b ++ x)) = Ret (in_length m h hd n b, x).
Proof.
  intros F Hb Hc (v & Hv & Hn) Hg Hx.
  assert (Hm : h_mode hd = MLength).
  { rewrite (hf_mode _ _ _ _ F), Hc. unfold length_value in Hv. destruct (named _ _ _); [discriminate|reflexivity]. }
  destruct (hf_length _ _ _ _ F Hc v Hv) as (z & Hz & Hlen). rewrite Hn in Hz. injection Hz as <-.
  unfold begin_body. cbn [head_done m_head set_mode set_head]. rewrite (has_body_true _ _ _ _ F Hb) by (left; congruence). cbn [negb]. unfold body_is_chunked, body_length. rewrite Hm, Hlen.
  rewrite (hf_coding _ _ _ _ F). fold (gzip_coded ign (head_pairs h)). rewrite Hg. cbn [bind reader_remaining].
  unfold in_length. destruct (Z.eqb_spec n 0) as [->|Hn0].
  - assert (b = []) by (destruct Hx as [Hx|[Hx _]]; [destruct b; [reflexivity|cbn in Hx; lia]|lia]). subst b. cbn [app List.length Z.of_nat Z.eqb Z.sub Z.opp]. rewrite app_nil_r.
    rewrite BF_done by auto. reflexivity.
  - match goal with |- base_feed _ ?M _ = _ => set (m1 := M) end.
    destruct (b ++ x) as [|c t] eqn:Et.
    + apply app_eq_nil in Et as [-> ->]. rewrite BF_nil. cbn [List.length Z.of_nat]. replace (0 =? n)%Z with false by lia. unfold m1, set_chunks, set_reader, head_done, set_mode, set_head, took, set_buf. cbn.
      rewrite app_nil_r. replace (n - 0)%Z with n by lia. reflexivity.
    + rewrite (BF_length gz m1 n); [|reflexivity|reflexivity|discriminate]. rewrite <- Et. rewrite length_feed_pos by lia. cbv zeta.
      assert (Hf : firstn (Z.to_nat n) (b ++ x) = b /\ skipn (Z.to_nat n) (b ++ x) = x).
      { destruct Hx as [Hx|[Hx ->]].
        - replace (Z.to_nat n) with (List.length b) by lia. rewrite firstn_app, skipn_app, firstn_all, skipn_all, Nat.sub_diag. cbn. split; [apply app_nil_r|reflexivity].
        - rewrite app_nil_r. split; [apply firstn_all2; lia|apply skipn_all2; lia]. }
      destruct Hf as [-> ->]. rewrite app_length. destruct Hx as [Hx|[Hx ->]].
      * replace (n <=? Z.of_nat (List.length b + List.length x))%Z with true by lia. replace (Z.of_nat (List.length b) =? n)%Z with true by lia.
        do 2 f_equal. unfold m1, set_chunks, set_reader, head_done, set_mode, set_head, took, set_buf. cbn. rewrite <- !app_assoc. reflexivity.
      * replace (n <=? Z.of_nat (List.length b + @List.length N []))%Z with false by (cbn [List.length]; lia). replace (Z.of_nat (List.length b) =? n)%Z with false by lia.
        do 2 f_equal. unfold m1, set_chunks, set_reader, head_done, set_mode, set_head, took, set_buf. cbn. rewrite <- !app_assoc. reflexivity.
Qed.
Lemma in_length_body m h hd n b : (Z.of_nat (List.length b) <= n)%Z -> get_body (in_length m h hd n b) = b.
Proof.
  intro H. unfold get_body, in_length. cbn [m_chunks m_buf map fst snd concat]. rewrite app_nil_r, (app_assoc (m_buf m)). apply slice_to_end. exact H.
Qed.

(** ** no body, and bodies up to the end of the connection *)
Lemma no_body m h hd rest : has_body hd = false -> bind (begin_body gz (head_done m h hd) rest) (fun m2 => base_feed gz m2 rest) =
  Ret (set_mode (head_done m h hd) End, rest).
Proof. intro H. unfold begin_body. cbn [head_done m_head set_mode set_head]. rewrite H. cbn [negb bind]. rewrite BF_done by auto. reflexivity. Qed.
Definition in_close (m : msg) (h : msg_head) (hd : hdr) (b : bytes) : msg :=
  mkmsg (m_buf m ++ head_text h ++ b) (List.length (m_buf m ++ head_text h ++ b)) hd [(List.length (m_buf m ++ head_text h), Z.of_nat (List.length b))]
        Body None (m_interim m).
Lemma close_body m h hd k ign b : head_facts hd k ign (head_pairs h) -> may_have_body k -> (exists rm a c p, k = KResponse rm a c p) ->
  says_chunked (ignored ign) (head_pairs h) = false -> length_value (ignored ign) (head_pairs h) = None ->
  bind (begin_body gz (head_done m h hd) b) (fun m2 => base_feed gz m2 b) = Ret (in_close m h hd b, []).
Proof.
  intros F Hb Hk Hc Hl.
  assert (Hm : h_mode hd = MClose).
  { rewrite (hf_mode _ _ _ _ F), Hc. unfold length_value in Hl. destruct (named _ _ _); [reflexivity|discriminate]. }
  unfold begin_body. cbn [head_done m_head set_mode set_head]. rewrite (has_body_true _ _ _ _ F Hb) by (right; exact Hk). cbn [negb]. unfold body_is_chunked, body_length. rewrite Hm. cbn [bind].
  unfold in_close. destruct b as [|c t].
  - rewrite BF_nil. unfold set_chunks, set_reader, head_done, set_mode, set_head, took, set_buf. cbn. rewrite app_nil_r. reflexivity.
  - rewrite BF_body by (try reflexivity; discriminate). unfold feed_body. cbn [m_reader set_reader]. unfold raw_body. cbn [m_chunks set_reader set_chunks].
    unfold set_chunks, set_reader, head_done, set_mode, set_head, took, set_buf. cbn [m_buf m_off m_head m_chunks m_mode m_reader m_interim]. rewrite <- !app_assoc. do 3 f_equal.
Qed.
Lemma in_close_body m h hd b : get_body (in_close m h hd b) = b.
Proof. unfold get_body, in_close. cbn [m_chunks m_buf map fst snd concat]. rewrite app_nil_r, (app_assoc (m_buf m)). apply slice_to_end. lia. Qed.
End G.

(** ** chunked bodies *)
Fixpoint entries (p : bytes) (cs : list chunk) : list (nat * Z) :=
  match cs with
  | [] => []
  | c :: t => (List.length (p ++ c_size c ++ c_ext c ++ eol (c_crlf1 c)), Z.of_nat (List.length (c_data c))) :: entries (p ++ chunk_text c) t
  end.
Lemma entries_body cs : forall p rest, concat (map (fun e => slice (p ++ concat (map chunk_text cs) ++ rest) (fst e) (Z.of_nat (fst e) + snd e)) (entries p cs)) = concat (map c_data cs).
Proof.
  induction cs as [|c cs IH]; intros p rest; [reflexivity|]. cbn [entries map concat fst snd]. f_equal.
  - unfold chunk_text at 1. rewrite <- !app_assoc.
    replace (p ++ c_size c ++ c_ext c ++ eol (c_crlf1 c) ++ c_data c ++ eol (c_crlf2 c) ++ concat (map chunk_text cs) ++ rest)
      with ((p ++ c_size c ++ c_ext c ++ eol (c_crlf1 c)) ++ c_data c ++ (eol (c_crlf2 c) ++ concat (map chunk_text cs) ++ rest)) by (rewrite <- !app_assoc; reflexivity).
    apply slice_at.
  - specialize (IH (p ++ chunk_text c) rest). rewrite <- app_assoc in IH. rewrite <- app_assoc. exact IH.
Qed.
Definition after_chunks (m : msg) (cs : list chunk) : msg :=
  match cs with
  | [] => m
  | _ => set_creader (set_chunks (took m (concat (map chunk_text cs))) (m_chunks m ++ entries (m_buf m) cs)) CStart false 0
  end.
Lemma ext_no_lf s e : forallb is_hex s = true -> ext_ok e -> no_lf (s ++ e).
Proof. intros H [He _] X. apply in_app_or in X as [X|X]; [|auto]. rewrite forallb_forall in H. specialize (H _ X). discriminate. Qed.
Lemma CF_size m s r a e b rest : flush m -> m_reader m = Some (RChunk CStart s r) -> a <> [] -> forallb is_hex a = true -> ext_ok e ->
  CF m (a ++ e ++ eol b ++ rest) = CF (size_read m (a ++ e ++ before_lf b) (hex_value a)) rest.
Proof.
  intros Hf Hr Hn Ha He. rewrite app_assoc. rewrite (CF_start m s r _ (flush_bwf m Hf) Hr) by apply line_ne. rewrite line_cut by (apply ext_no_lf; assumption).
  rewrite (flush_pending m Hf). cbn [app]. replace (((a ++ e) ++ before_lf b) ++ [LF]) with (a ++ e ++ eol b) by (rewrite eol_lf, <- !app_assoc; reflexivity).
  rewrite chunk_size_hex by assumption. rewrite <- app_assoc. reflexivity.
Qed.
Lemma CF_chunks cs : forall m s r rest, flush m -> m_reader m = Some (RChunk CStart s r) -> Forall chunk_ok cs ->
  CF m (concat (map chunk_text cs) ++ rest) = CF (after_chunks m cs) rest.
Proof.
  induction cs as [|c cs IH]; intros m s r rest Hf Hr Hok; [reflexivity|]. inversion Hok as [|? ? Hc Hcs]; subst. destruct Hc as (C1 & C2 & C3 & C4 & C5).
  cbn [map concat]. unfold chunk_text at 1. rewrite <- !app_assoc. rewrite (CF_size m s r) by assumption. rewrite C5.
  set (m1 := size_read m (c_size c ++ c_ext c ++ before_lf (c_crlf1 c)) (Z.of_nat (List.length (c_data c)))).
  assert (Hf1 : flush m1) by reflexivity.
  assert (Hr1 : m_reader m1 = Some (RChunk CChunk false (Z.of_nat (List.length (c_data c))))).
  { unfold m1, size_read. cbn. replace (Z.of_nat (List.length (c_data c)) =? 0)%Z with false; [reflexivity|]. symmetry. apply Z.eqb_neq. destruct (c_data c); [contradiction|cbn; lia]. }
  rewrite (CF_chunk_full m1 false (c_data c) _ (flush_bwf _ Hf1) Hr1 C4).
  set (m2 := set_creader (took m1 (c_data c)) CChunk false 0).
  change (eol (c_crlf2 c) ++ concat (map chunk_text cs) ++ rest) with ([] ++ eol (c_crlf2 c) ++ concat (map chunk_text cs) ++ rest).
  rewrite (CF_chunk_end m2 false _ (flush_bwf m2 eq_refl) eq_refl) by apply line_ne. rewrite line_cut by intros []. cbn [app]. rewrite <- eol_lf.
  set (m3 := set_creader (took m2 (eol (c_crlf2 c))) CStart false 0).
  rewrite (IH m3 false 0%Z rest eq_refl eq_refl Hcs). f_equal.
  assert (B3 : m_buf m3 = m_buf m ++ chunk_text c).
  { unfold m3, m2, m1, size_read, chunk_text. cbn. rewrite (eol_lf (c_crlf1 c)), <- !app_assoc. reflexivity. }
  assert (K3 : m_chunks m3 = m_chunks m ++ [(List.length (m_buf m ++ c_size c ++ c_ext c ++ eol (c_crlf1 c)), Z.of_nat (List.length (c_data c)))]).
  { unfold m3, m2, m1, size_read. cbn. rewrite (eol_lf (c_crlf1 c)), <- !app_assoc. reflexivity. }
  assert (E3 : m3 = set_creader (set_chunks (took m (chunk_text c)) (m_chunks m3)) CStart false 0).
  { rewrite K3. unfold m3, m2, m1, size_read, set_creader, set_reader, set_chunks, took, set_buf, chunk_text. cbn. rewrite (eol_lf (c_crlf1 c)), <- !app_assoc. reflexivity. }
  destruct cs as [|c' cs]; cbn [after_chunks].
  - rewrite E3, K3. cbn [map concat entries]. rewrite app_nil_r. reflexivity.
  - remember (c' :: cs) as cs'. rewrite E3. unfold set_creader, set_reader, set_chunks, took, set_buf. cbn [m_buf m_off m_head m_chunks m_mode m_reader m_interim map concat entries].
    rewrite K3, <- !app_assoc. reflexivity.
Qed.
(** trailers *)
Lemma CF_trailer_line m s r l b rest : flush m -> m_reader m = Some (RChunk CTrailer s r) -> no_lf l -> CF m (l ++ eol b ++ rest) =
  bind (add_trailer_line (m_head m) (l ++ eol b)) (fun h =>
    let m' := set_head (took m (l ++ eol b)) h in
    if in_list (l ++ eol b) NEWLINES then Ret (Some (set_mode (set_creader m' CEnd s r) End, rest)) else CF m' rest).
Proof.
  intros Hf Hr Hl. rewrite (CF_trailer m s r _ (flush_bwf m Hf) Hr) by apply line_ne. rewrite line_cut by exact Hl.
  rewrite (flush_pending m Hf). cbn [app]. rewrite <- app_assoc, <- eol_lf. cbv zeta.
  destruct (add_trailer_line _ _) as [h| |]; cbn [bind]; try reflexivity. destruct (in_list _ NEWLINES); [reflexivity|].
  f_equal. apply creader_eta. exact Hr.
Qed.
Lemma CF_folds xs : forall m s r l k v rest, flush m -> m_reader m = Some (RChunk CTrailer s r) -> Forall (fun x => no_lf (fst x) /\ starts_blank (fst x) = true) xs ->
  h_trailers (m_head m) = l ++ [(k, v)] ->
  CF m (concat (map fold_text xs) ++ rest) =
  CF (set_head (took m (concat (map fold_text xs))) (set_trailers (m_head m) (l ++ [(k, v ++ concat (map (fun x => [SP] ++ strip (fst x)) xs))]))) rest.
Proof.
  induction xs as [|x xs IH]; intros m s r l k v rest Hf Hr Hx Hl.
  - cbn [map concat app]. replace (l ++ [(k, v ++ [])]) with (h_trailers (m_head m)) by (rewrite app_nil_r; exact Hl). rewrite took_nil by exact Hf. rewrite set_trailers_eta, set_head_eta. reflexivity.
  - inversion Hx as [|? ? [H1 H2] H3]; subst. destruct x as [t b]. cbn [fst snd] in *. cbn [map concat]. unfold fold_text at 1. cbn [fst snd]. rewrite <- !app_assoc.
    destruct (fold_line t b H2) as (F1 & F2 & F3). rewrite (CF_trailer_line m s r) by assumption. unfold add_trailer_line. rewrite F1, F2, Hl, fold_last_snoc, F3. cbn [bind].
    cbv zeta. match goal with |- CF ?M _ = _ => set (m1 := M) end.
    rewrite (IH m1 s r l k (v ++ [SP] ++ strip t)); [|reflexivity|exact Hr|exact H3|reflexivity].
    f_equal. unfold m1, set_head, took, set_buf, set_trailers. cbn. rewrite <- !app_assoc. reflexivity.
Qed.
Lemma CF_fields fs : forall m s r rest, flush m -> m_reader m = Some (RChunk CTrailer s r) -> Forall field_ok fs ->
  CF m (fields_text fs ++ rest) =
  CF (set_head (took m (fields_text fs)) (set_trailers (m_head m) (h_trailers (m_head m) ++ map field_pair fs))) rest.
Proof.
  induction fs as [|f fs IH]; intros m s r rest Hf Hr Hok.
  - unfold fields_text. cbn [map concat app]. rewrite app_nil_r, took_nil by exact Hf. rewrite set_trailers_eta, set_head_eta. reflexivity.
  - inversion Hok as [|? ? H1 H2]; subst. unfold fields_text. cbn [map concat]. fold (fields_text fs). rewrite <- app_assoc.
    pose proof H1 as (N1 & N2 & _ & _ & N5). destruct (field_first f (f_crlf f) H1) as (F1 & F2 & F3). unfold field_text at 1. rewrite <- !app_assoc.
    replace (f_name f ++ [COLON] ++ f_value f ++ eol (f_crlf f) ++ concat (map fold_text (f_folds f)) ++ fields_text fs ++ rest)
      with ((f_name f ++ [COLON] ++ f_value f) ++ eol (f_crlf f) ++ concat (map fold_text (f_folds f)) ++ fields_text fs ++ rest) by (rewrite <- !app_assoc; reflexivity).
    rewrite (CF_trailer_line m s r); [|exact Hf|exact Hr|].
    2:{ intro X. apply in_app_or in X as [X|X]; [auto|]. destruct X as [X|X]; [discriminate|auto]. }
    replace ((f_name f ++ [COLON] ++ f_value f) ++ eol (f_crlf f)) with (f_name f ++ [COLON] ++ f_value f ++ eol (f_crlf f)) by (rewrite <- !app_assoc; reflexivity).
    unfold add_trailer_line. rewrite F1, F2, F3. cbn [bind]. cbv zeta. match goal with |- CF ?M _ = _ => set (m1 := M) end.
    rewrite (CF_folds (f_folds f) m1 s r (h_trailers (m_head m)) (strip (f_name f)) (strip (f_value f))); [|reflexivity|exact Hr|exact N5|reflexivity].
    match goal with |- CF ?M _ = _ => set (m2 := M) end.
    rewrite (IH m2 s r); [|reflexivity|exact Hr|exact H2]. f_equal. unfold m2, m1, set_head, took, set_buf, set_trailers. cbn.
    unfold field_text. cbn [map]. rewrite <- !app_assoc. cbn [app]. rewrite <- ?app_assoc. reflexivity.
Qed.
Lemma zeros_hex z : forallb (N.eqb 48) z = true -> forallb is_hex z = true /\ hex_value z = 0%Z.
Proof.
  intro H. rewrite forallb_forall in H. assert (E : z = repeat 48%N (List.length z)).
  { clear -H. induction z as [|c z IH]; [reflexivity|]. cbn. rewrite <- IH by (intros x Hx; apply H; right; exact Hx). specialize (H c (or_introl eq_refl)). apply N.eqb_eq in H. subst c. reflexivity. }
  rewrite E. generalize (List.length z). clear. intro n. split.
  - induction n; [reflexivity|exact IHn].
  - unfold hex_value. induction n; [reflexivity|exact IHn].
Qed.
Definition chunked_done (m : msg) (k : chunked) : msg :=
  mkmsg (m_buf m ++ chunked_text k) (List.length (m_buf m ++ chunked_text k))
        (set_trailers (m_head m) (h_trailers (m_head m) ++ map field_pair (k_trailers k)))
        (m_chunks m ++ entries (m_buf m) (k_chunks k) ++
          [(List.length (m_buf m ++ concat (map chunk_text (k_chunks k)) ++ k_last k ++ k_ext k ++ eol (k_crlf k)), 0%Z)])
        End (Some (RChunk CEnd false 0)) (m_interim m).
Theorem CF_chunked m s r k rest : flush m -> m_mode m = Body -> m_reader m = Some (RChunk CStart s r) -> chunked_ok k ->
  CF m (chunked_text k ++ rest) = Ret (Some (chunked_done m k, rest)).
Proof.
  intros Hf Hm Hr (K1 & K2 & K3 & K4 & K5). destruct (zeros_hex _ K3) as [K6 K7].
  unfold chunked_text. rewrite <- !app_assoc. rewrite (CF_chunks _ m s r) by assumption.
  set (m1 := after_chunks m (k_chunks k)).
  assert (A : exists s1 r1, m_reader m1 = Some (RChunk CStart s1 r1)) by (unfold m1; destruct (k_chunks k); cbn; eauto). destruct A as (s1 & r1 & A).
  assert (A2 : flush m1) by (unfold m1; destruct (k_chunks k); [exact Hf|reflexivity]).
  assert (A3 : m_buf m1 = m_buf m ++ concat (map chunk_text (k_chunks k))) by (unfold m1; destruct (k_chunks k); [cbn; rewrite app_nil_r; reflexivity|reflexivity]).
  assert (A4 : m_chunks m1 = m_chunks m ++ entries (m_buf m) (k_chunks k)) by (unfold m1; destruct (k_chunks k); [cbn; rewrite app_nil_r; reflexivity|reflexivity]).
  assert (A5 : m_head m1 = m_head m /\ m_mode m1 = m_mode m /\ m_interim m1 = m_interim m) by (unfold m1; destruct (k_chunks k); repeat split). destruct A5 as (A5 & A6 & A7).
  clearbody m1. rewrite (CF_size m1 s1 r1) by assumption. rewrite K7.
  set (m2 := size_read m1 (k_last k ++ k_ext k ++ before_lf (k_crlf k)) 0).
  assert (R2 : m_reader m2 = Some (RChunk CTrailer false 0)) by reflexivity.
  assert (P1 : flush m2) by reflexivity.
  assert (P2 : m_buf m2 = m_buf m ++ concat (map chunk_text (k_chunks k)) ++ k_last k ++ k_ext k ++ eol (k_crlf k)).
  { change (m_buf m2) with (m_buf m1 ++ (k_last k ++ k_ext k ++ before_lf (k_crlf k)) ++ [LF]). rewrite A3, (eol_lf (k_crlf k)), <- !app_assoc. reflexivity. }
  assert (P3 : m_chunks m2 = m_chunks m ++ entries (m_buf m) (k_chunks k) ++ [(List.length (m_buf m ++ concat (map chunk_text (k_chunks k)) ++ k_last k ++ k_ext k ++ eol (k_crlf k)), 0%Z)]).
  { rewrite <- P2. change (m_chunks m2) with (m_chunks m1 ++ [(List.length (m_buf m2), 0%Z)]). rewrite A4, <- app_assoc. reflexivity. }
  assert (P4 : m_head m2 = m_head m) by exact A5.
  assert (P5 : m_interim m2 = m_interim m) by exact A7.
  clearbody m2.
  rewrite (CF_fields _ m2 false 0%Z) by assumption.
  set (m3 := set_head (took m2 (fields_text (k_trailers k))) (set_trailers (m_head m2) (h_trailers (m_head m2) ++ map field_pair (k_trailers k)))).
  assert (Q1 : m_buf m3 = m_buf m2 ++ fields_text (k_trailers k)) by reflexivity.
  assert (Q2 : m_head m3 = set_trailers (m_head m) (h_trailers (m_head m) ++ map field_pair (k_trailers k))) by (rewrite <- P4; reflexivity).
  assert (Q3 : m_chunks m3 = m_chunks m2) by reflexivity.
  assert (Q4 : m_interim m3 = m_interim m) by exact P5.
  assert (Q5 : m_reader m3 = Some (RChunk CTrailer false 0)) by exact R2.
  assert (Q6 : flush m3) by reflexivity.
  clearbody m3.
  change (eol (k_end_crlf k) ++ rest) with ([] ++ eol (k_end_crlf k) ++ rest). rewrite (CF_trailer_line m3 false 0%Z); [|exact Q6|exact Q5|intros []].
  cbn [app]. unfold add_trailer_line. replace (is_folded (eol (k_end_crlf k))) with false by (destruct (k_end_crlf k); reflexivity). rewrite newlines_eol. cbn [bind].
  cbv zeta. unfold chunked_done, set_creader, set_reader, set_mode, set_head, took, set_buf. cbn [m_buf m_off m_head m_chunks m_mode m_reader m_interim].
  rewrite Q1, Q2, Q3, Q4, P2, P3. unfold chunked_text. rewrite <- !app_assoc. reflexivity.
Qed.
Lemma chunked_done_body m k : m_chunks m = [] -> get_body (chunked_done m k) = chunked_data k.
Proof.
  intro H. unfold get_body, chunked_done. cbn [m_chunks m_buf]. rewrite H. cbn [app]. rewrite map_app, concat_app. cbn [map concat fst snd]. rewrite app_nil_r.
  match goal with |- _ ++ ?z = _ => replace z with (@nil N) end.
  - rewrite app_nil_r. unfold chunked_text. apply entries_body.
  - unfold chunked_text. rewrite !app_assoc. rewrite <- (app_assoc _ (fields_text _)). rewrite slice_at0. reflexivity.
Qed.
Section G3.
Variable gz : bytes -> outcome bytes.
Lemma chunked_body m h hd k ign c rest : head_facts hd k ign (head_pairs h) -> may_have_body k -> m_chunks m = [] ->
  says_chunked (ignored ign) (head_pairs h) = true -> chunked_ok c ->
  bind (begin_body gz (head_done m h hd) (chunked_text c ++ rest)) (fun m2 => base_feed gz m2 (chunked_text c ++ rest)) =
  Ret (chunked_done (head_done m h hd) c, rest).
Proof.
  intros F Hb Hk Hc Hok. assert (Hm : h_mode hd = MChunked) by (rewrite (hf_mode _ _ _ _ F), Hc; reflexivity).
  unfold begin_body. cbn [head_done m_head set_mode set_head]. rewrite (has_body_true _ _ _ _ F Hb) by (left; congruence). cbn [negb]. unfold body_is_chunked. rewrite Hm. cbn [bind].
  rewrite BF_chunk; [|reflexivity|eexists _, _, _; reflexivity]. rewrite (CF_chunked _ true 0%Z) by (try reflexivity; assumption). reflexivity.
Qed.
End G3.
