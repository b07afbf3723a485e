(** The HTTP parser on arbitrary bytes: framing and bodies. *)
From Verif Require Import RegexFacts.
From Verif Require Export HttpAnyFacts.
From Coq Require Import String List Lia ZArith.
Open Scope list_scope.

(** ** framing fields *)
Lemma bad_cons ign nv l : named ign (B "content-length") [nv] = [] -> says_chunked ign [nv] = false -> bad_length ign (nv :: l) <-> bad_length ign l.
Proof.
  intros H1 H2.
  assert (N1 : forall a, named ign (B "content-length") (nv :: a) = named ign (B "content-length") a).
  { intro a. rewrite named_cons. rewrite named_cons in H1. cbn [named filter map] in H1. destruct (_ && _); [discriminate|reflexivity]. }
  assert (N2 : forall a, says_chunked ign (nv :: a) = says_chunked ign a).
  { intro a. unfold says_chunked in *. rewrite named_cons. rewrite named_cons in H2. rewrite existsb_app in *. apply Bool.orb_false_iff in H2 as [H2 _]. rewrite H2. reflexivity. }
  split.
  - intros (a & n & v & b & E & Hn & Hi & Hl & Hc & Hv). destruct a as [|x a].
    + cbn [app] in E. injection E as -> ->. rewrite named_cons in H1. cbn [fst snd] in H1. rewrite Hn, bytes_eqb_refl in H1.
      destruct (in_list (B "content-length") ign) eqn:E; [apply in_list_In in E; contradiction|discriminate].
    + cbn [app] in E. injection E as <- ->. exists a, n, v, b. unfold length_value in *. rewrite N1 in Hl. rewrite N2 in Hc. auto 9.
  - intros (a & n & v & b & -> & Hn & Hi & Hl & Hc & Hv). exists (nv :: a), n, v, b. unfold length_value in *. rewrite N1, N2. auto 9.
Qed.
Lemma note_exact l : forall h, h_mode h = MClose ->
  (exists h', note_headers h l = Ret h' /\ ~ bad_length (h_ignore h) l) \/ (note_headers h l = Raise EValueError /\ bad_length (h_ignore h) l).
Proof.
  induction l as [|nv l IH]; intros h Hm.
  { left. exists h. split; [reflexivity|]. intros (a & n & v & b & E & _). destruct a; discriminate. }
  cbn [note_headers]. destruct (heads h (B "content-length") nv) as [|v k] eqn:Eh.
  - destruct (note_header_total h nv) as [h1 E]; [intros _ v X; congruence|]. rewrite E. cbn [bind].
    destruct (note_header_spec _ _ _ E) as ((_ & _ & _ & Hi) & Hm1 & _). rewrite Eh, Hm in Hm1.
    assert (N1 : named (h_ignore h) (B "content-length") [nv] = []) by (rewrite named_heads, Eh; reflexivity).
    assert (N2 : says_chunked (h_ignore h) [nv] = existsb (contains (B "chunked")) (heads h (B "transfer-encoding") nv)).
    { unfold says_chunked. rewrite named_heads, app_nil_r. reflexivity. }
    destruct (existsb (contains (B "chunked")) (heads h (B "transfer-encoding") nv)) eqn:Ec; cbn [mode_after] in Hm1.
    + left. destruct (note_headers_total l h1) as [h2 E2]; [left; congruence|]. exists h2. split; [exact E2|].
      intros (a & n & v & b & Ea & Hn & Hig & Hl & Hc & Hv). destruct a as [|x a]; cbn [app] in Ea; injection Ea as -> ->.
      * rewrite named_cons in N1. cbn [fst snd] in N1. rewrite Hn, bytes_eqb_refl in N1.
        destruct (in_list (B "content-length") (h_ignore h)) eqn:Ei; [apply in_list_In in Ei; contradiction|discriminate].
      * unfold says_chunked in *. rewrite named_cons in Hc. rewrite named_cons in N2. rewrite existsb_app in *. cbn [named filter map existsb] in N2. rewrite Bool.orb_false_r in N2. rewrite N2 in Hc. discriminate.
    + destruct (IH h1 Hm1) as [(h' & E1 & Hb)|[E1 Hb]]; rewrite Hi in Hb; [left; exists h'|right]; (split; [exact E1|]); rewrite (bad_cons _ nv l N1 N2); exact Hb.
  - unfold heads in Eh. destruct (bytes_eqb (lower (fst nv)) (B "content-length") && negb (in_list (B "content-length") (h_ignore h))) eqn:E; [|discriminate].
    apply Bool.andb_true_iff in E as [E1 E2]. apply bytes_eqb_eq in E1. apply Bool.negb_true_iff in E2. injection Eh as Ev _.
    assert (Hni : ~ In (B "content-length") (h_ignore h)) by (intro X; apply in_list_In in X; congruence).
    destruct (py_int 10 v) as [z|] eqn:Ez.
    + destruct (note_header_total h nv) as [h1 E]; [intros _ v' X; unfold heads in X; rewrite E1, bytes_eqb_refl, E2 in X; injection X as <-; congruence|].
      rewrite E. cbn [bind]. destruct (note_header_spec _ _ _ E) as (_ & Hm1 & _). left.
      destruct (note_headers_total l h1) as [h2 E3].
      { left. rewrite Hm1, Hm. unfold heads at 2. rewrite E1, bytes_eqb_refl, E2. cbn [andb negb]. unfold mode_after. destruct (existsb _ _); discriminate. }
      exists h2. split; [exact E3|]. intros (a & n & w & b & Ea & Hn & Hig & Hl & Hc & Hv). destruct a as [|x a]; cbn [app] in Ea; injection Ea as -> ->.
      * cbn [snd] in Ev. congruence.
      * unfold length_value in Hl. rewrite named_cons, E1, bytes_eqb_refl, E2 in Hl. discriminate.
    + right. split.
      * unfold note_header. cbv zeta. rewrite E1, E2, Ev. change (bytes_eqb (B "content-length") (B "expect")) with false. rewrite bytes_eqb_refl, Hm, Ez. reflexivity.
      * destruct nv as [n w]. cbn [fst snd] in *. exists [], n, w, l. subst v. auto 9.
Qed.
Definition fresh_hdr (h : hdr) (s : hkind) (ign : list bytes) (l : pairs) : Prop :=
  h_kind h = s /\ h_headers h = l /\ h_trailers h = [] /\ h_mode h = MClose /\ h_encoding h = None /\ h_expect h = false /\
  h_keep_alive h = false /\ h_ignore h = ignored ign.
Lemma note_facts h s ign l hd : fresh_hdr h s ign l -> note_headers h l = Ret hd -> head_facts hd s ign l.
Proof.
  intros (A1 & A2 & A3 & A4 & A5 & A6 & A7 & A8) H. destruct (note_headers_spec _ _ _ H) as ((B1 & B2 & B3 & B4) & B5 & B6 & _ & B8 & B9).
  rewrite A8 in *. constructor.
  - congruence.
  - congruence.
  - congruence.
  - rewrite B5, A4. reflexivity.
  - apply B6. exact A4.
  - rewrite B8, A5. destruct (coding (ignored ign) l); reflexivity.
  - rewrite B9, A6. reflexivity.
  - rewrite (note_headers_keep _ _ _ H), A7, A8. rewrite keep_find. reflexivity.
Qed.
Lemma framed_total ign s l : ~ bad_length (ignored ign) l -> exists fr, framed ign s l fr.
Proof.
  intro Hb. assert (D : {has_none s} + {~ has_none s}).
  { destruct s as [a b c d|rm a code p]; [right; intros []|]. destruct (method_no_body rm || code_no_body code) eqn:E; [left; apply bodyless_iff, E|right; intro X; apply bodyless_iff in X; congruence]. }
  destruct D as [D|D]; [eexists; apply fr_none, D|]. destruct (says_chunked (ignored ign) l) eqn:Ec; [eexists; apply fr_chunked; assumption|].
  destruct (length_value (ignored ign) l) as [v|] eqn:El.
  - destruct (py_int 10 v) as [n|] eqn:En; [eexists; eapply fr_sized; eassumption|]. exfalso.
    destruct (note_exact l (set_headers (new_request_hdr ign) l) eq_refl) as [(h' & E & _)|[_ E]]; [|exact (Hb E)].
    assert (F : note_headers (set_headers (new_request_hdr ign) l) l = Raise EValueError) by (eapply note_headers_first_bad; [reflexivity|exact Ec|exact El|exact En]). congruence.
  - destruct s; eexists; [eapply fr_request|eapply fr_close]; try reflexivity; assumption.
Qed.

(** ** trailers *)
(** from [m] to [m'], having taken [x]: everything but the trailers, the chunks, the
    reader and the mode is as before *)
Definition moved (m m' : msg) (x : bytes) (t : pairs) : Prop :=
  m_head m' = set_trailers (m_head m) t /\ m_buf m' = m_buf m ++ x /\ m_interim m' = m_interim m.
Lemma moved_step m m1 m2 x y t t' : m_head m1 = set_trailers (m_head m) t' -> m_buf m1 = m_buf m ++ x -> m_interim m1 = m_interim m ->
  moved m1 m2 y t -> moved m m2 (x ++ y) t.
Proof. intros H1 H2 H3 (A & B & C). split; [rewrite A, H1; reflexivity|]. split; [rewrite B, H2, <- app_assoc; reflexivity|congruence]. Qed.
Lemma CF_line_trailer m s r l rest : flush m -> m_reader m = Some (RChunk CTrailer s r) -> no_lf l -> CF m (l ++ [LF] ++ rest) =
  bind (add_trailer_line (m_head m) (l ++ [LF])) (fun h =>
    let m' := set_head (took m (l ++ [LF])) h in
    if in_list (l ++ [LF]) NEWLINES then Ret (Some (set_mode (set_creader m' CEnd s r) End, rest)) else CF m' rest).
Proof.
  intros Hf Hr Hl. rewrite (CF_trailer m s r _ (flush_bwf m Hf) Hr) by apply app_ne_lf. rewrite cut_lf by exact Hl.
  rewrite (flush_pending m Hf). cbn [app]. cbv zeta.
  destruct (add_trailer_line _ _) as [h|e|]; cbn [bind]; try reflexivity. destruct (in_list _ _); [reflexivity|].
  rewrite creader_eta; [reflexivity|]. exact Hr.
Qed.
Lemma CF_lines acc text o : lines_read acc text o -> forall m s r, flush m -> m_reader m = Some (RChunk CTrailer s r) -> h_trailers (m_head m) = acc ->
  match o with
  | Ret (t, None) => exists m', CF m text = Ret (Some (m', [])) /\ m_mode m' = m_mode m /\ m_chunks m' = m_chunks m /\ moved m m' text t
  | Ret (t, Some rest) => exists m' x, text = x ++ rest /\ CF m text = Ret (Some (m', rest)) /\ m_mode m' = End /\ m_chunks m' = m_chunks m /\ moved m m' x t
  | Raise e => CF m text = Raise e
  | Diverge => False
  end.
Proof.
  induction 1 as [acc text Hl|acc l rest Hb|acc k v l rest o Hl Hs H IH|l rest Hl Hs|acc n v rest o Hn Hv Hc Hs H IH|acc l rest Hl Hb Hs Hc]; intros m s r Hf Hr Ha.
  - destruct text as [|c t].
    + exists m. split; [apply CF_nil|]. split; [reflexivity|]. split; [reflexivity|]. split; [rewrite <- Ha, set_trailers_eta; reflexivity|]. rewrite app_nil_r. auto.
    + exists (pushed m (c :: t)). rewrite (CF_trailer m s r _ (flush_bwf m Hf) Hr) by discriminate. apply split_once_none in Hl. rewrite Hl. split; [reflexivity|].
      split; [reflexivity|]. split; [reflexivity|]. split; [rewrite <- Ha, set_trailers_eta; reflexivity|]. auto.
  - rewrite (CF_line_trailer m s r l rest Hf Hr (blank_no_lf l Hb)). unfold add_trailer_line. rewrite folded_lf, (blank_not_folded l Hb), (proj2 (blank_iff l) Hb). cbn [bind]. cbv zeta.
    eexists _, (l ++ [LF]). split; [rewrite <- app_assoc; reflexivity|]. split; [reflexivity|]. split; [reflexivity|]. split; [reflexivity|].
    split; [cbn; rewrite <- Ha, set_trailers_eta; reflexivity|]. auto.
  - rewrite (CF_line_trailer m s r l rest Hf Hr Hl). unfold add_trailer_line. rewrite folded_lf, Hs, Ha, fold_last_snoc, strip_lf. cbn [bind].
    assert (Hnb : ~ blank l) by (intro X; apply blank_not_folded in X; congruence). rewrite (not_blank l Hnb). cbv zeta.
    match goal with |- context [CF ?M rest] => set (m1 := M) end. specialize (IH m1 s r (flush_took m (l ++ [LF])) Hr eq_refl).
    assert (S : forall m2 x t, moved m1 m2 x t -> moved m m2 ((l ++ [LF]) ++ x) t) by (intros m2 x t; eapply moved_step; reflexivity).
    destruct o as [[t [rest'|]]|e|]; [|..|exact IH]; [| |exact IH].
    + destruct IH as (m' & x & -> & I1 & I2 & I3 & I4). exists m', ((l ++ [LF]) ++ x). split; [rewrite <- !app_assoc; reflexivity|]. split; [exact I1|]. split; [exact I2|]. split; [rewrite I3; reflexivity|]. apply S, I4.
    + destruct IH as (m' & I1 & I2 & I3 & I4). exists m'. split; [exact I1|]. split; [rewrite I2; reflexivity|]. split; [rewrite I3; reflexivity|]. apply S in I4. rewrite <- app_assoc in I4. exact I4.
  - rewrite (CF_line_trailer m s r l rest Hf Hr Hl). unfold add_trailer_line. rewrite folded_lf, Hs, Ha. reflexivity.
  - assert (Hl : no_lf (n ++ [COLON] ++ v)) by (intro X; apply in_app_or in X as [X|[X|X]]; [contradiction|discriminate|contradiction]).
    assert (Hsb : starts_blank (n ++ [COLON] ++ v) = false) by (destruct n; [reflexivity|exact Hs]).
    rewrite (CF_line_trailer m s r _ rest Hf Hr Hl). unfold add_trailer_line. rewrite folded_lf, Hsb, field_lf by exact Hc.
    assert (Hnb : ~ blank (n ++ [COLON] ++ v)).
    { intros [E|E]; destruct n as [|c n]; try discriminate. cbn [app] in E. injection E as _ E. destruct n; discriminate. }
    rewrite (not_blank _ Hnb), Ha. cbn [bind]. cbv zeta.
    match goal with |- context [CF ?M rest] => set (m1 := M) end. specialize (IH m1 s r (flush_took m _) Hr eq_refl).
    set (L := (n ++ [COLON] ++ v) ++ [LF]) in *.
    assert (S : forall m2 x t, moved m1 m2 x t -> moved m m2 (L ++ x) t) by (intros m2 x t; eapply moved_step; reflexivity).
    assert (EL : forall y, (n ++ [COLON] ++ v) ++ [LF] ++ y = L ++ y) by (intro y; unfold L; rewrite <- !app_assoc; reflexivity).
    destruct o as [[t [rest'|]]|e|]; [|..|exact IH]; [| |exact IH].
    + destruct IH as (m' & x & -> & I1 & I2 & I3 & I4). exists m', (L ++ x). split; [rewrite EL, app_assoc; reflexivity|]. split; [exact I1|]. split; [exact I2|]. split; [rewrite I3; reflexivity|]. apply S, I4.
    + destruct IH as (m' & I1 & I2 & I3 & I4). exists m'. split; [exact I1|]. split; [rewrite I2; reflexivity|]. split; [rewrite I3; reflexivity|]. rewrite EL. apply S, I4.
  - rewrite (CF_line_trailer m s r l rest Hf Hr Hl). unfold add_trailer_line. rewrite folded_lf, Hs, (not_blank l Hb), (no_field_lf l Hc). reflexivity.
Qed.

(** ** chunks *)
Definition pieces (buf : bytes) (l : list (nat * Z)) : bytes := concat (map (fun p => slice buf (fst p) (Z.of_nat (fst p) + snd p)) l).
Lemma pieces_app buf a b : pieces buf (a ++ b) = pieces buf a ++ pieces buf b.
Proof. unfold pieces. rewrite map_app, concat_app. reflexivity. Qed.
Lemma CF_line_size m first r l rest : flush m -> m_reader m = Some (RChunk CStart first r) -> no_lf l -> CF m (l ++ [LF] ++ rest) =
  match chunk_size (l ++ [LF]) with None => if first then Ret None else Raise EValueError | Some n => CF (size_read m l n) rest end.
Proof.
  intros Hf Hr Hl. rewrite (CF_start m first r _ (flush_bwf m Hf) Hr) by apply app_ne_lf. rewrite cut_lf by exact Hl. rewrite (flush_pending m Hf). reflexivity.
Qed.
Lemma slice_neg (a : bytes) n : (n < 0)%Z -> slice a (List.length a) (Z.of_nat (List.length a) + n) = [].
Proof. intro H. unfold slice. rewrite skipn_all. apply firstn_nil. Qed.
Lemma pieces_one buf o n : pieces buf [(o, n)] = slice buf o (Z.of_nat o + n). Proof. unfold pieces. cbn [map concat fst snd]. apply app_nil_r. Qed.
Lemma moved_same m m' x : m_head m' = m_head m -> h_trailers (m_head m) = [] -> m_buf m' = m_buf m ++ x -> m_interim m' = m_interim m -> moved m m' x [].
Proof. intros A B C D. split; [|auto]. rewrite A, <- B, set_trailers_eta. reflexivity. Qed.
Lemma CF_any first text o : chunks_read first text o -> forall m r, flush m -> m_reader m = Some (RChunk CStart first r) -> h_trailers (m_head m) = [] ->
  match o with
  | Ret None => CF m text = Ret None
  | Ret (Some (d, t, None)) => exists m' new, CF m text = Ret (Some (m', [])) /\ m_mode m' = m_mode m /\ m_chunks m' = m_chunks m ++ new /\ pieces (m_buf m') new = d /\ moved m m' text t
  | Ret (Some (d, t, Some rest)) => exists m' new x, text = x ++ rest /\ CF m text = Ret (Some (m', rest)) /\ m_mode m' = End /\ m_chunks m' = m_chunks m ++ new /\ pieces (m_buf m') new = d /\ moved m m' x t
  | Raise e => CF m text = Raise e
  | Diverge => CF m text = Diverge
  end.
Proof.
  induction 1 as [first text Hl|l rest Hl Hz|l rest Hl Hz|first l rest o Hl Hz H|first l n rest Hl Hz Hn Hr0|first l n Hl Hz Hn|first l n d Hl Hz Hn|first l d more Hl Hd Hz Hm|first l d drop more o Hl Hd Hz Hm H IH]; intros m r Hf Hr Ht.
  - destruct text as [|c t].
    + exists m, []. split; [apply CF_nil|]. split; [reflexivity|]. split; [rewrite app_nil_r; reflexivity|]. split; [reflexivity|]. apply moved_same; auto. rewrite app_nil_r. reflexivity.
    + rewrite (CF_start m first r _ (flush_bwf m Hf) Hr) by discriminate. apply split_once_none in Hl. rewrite Hl.
      eexists _, []. split; [reflexivity|]. split; [reflexivity|]. split; [symmetry; apply app_nil_r|]. split; [reflexivity|]. apply moved_same; auto.
  - apply size_iff in Hz. rewrite (CF_line_size m _ r l rest Hf Hr Hl), Hz. reflexivity.
  - apply size_iff in Hz. rewrite (CF_line_size m _ r l rest Hf Hr Hl), Hz. reflexivity.
  - apply size_iff in Hz. rewrite (CF_line_size m _ r l rest Hf Hr Hl), Hz.
    pose proof (CF_lines [] rest o H (size_read m l 0) false 0%Z eq_refl eq_refl Ht) as Q.
    assert (S : forall m2 x t, moved (size_read m l 0) m2 x t -> moved m m2 ((l ++ [LF]) ++ x) t).
    { intros m2 x t. apply (moved_step m (size_read m l 0) m2 (l ++ [LF]) x t (h_trailers (m_head m))); [symmetry; apply set_trailers_eta|reflexivity|reflexivity]. }
    assert (Z : forall y, pieces ((m_buf m ++ l ++ [LF]) ++ y) [(List.length (m_buf m ++ l ++ [LF]), 0%Z)] = []) by (intro y; rewrite pieces_one; apply slice_at0).
    destruct o as [[t [rest'|]]|e|]; cbn [put_trailers]; [| |exact Q|destruct Q].
    + destruct Q as (m' & x & -> & Q1 & Q2 & Q3 & Q4). exists m', [(List.length (m_buf m ++ l ++ [LF]), 0%Z)], ((l ++ [LF]) ++ x).
      split; [rewrite <- !app_assoc; reflexivity|]. split; [exact Q1|]. split; [exact Q2|]. split; [rewrite Q3; reflexivity|].
      split; [destruct Q4 as (_ & Qb & _); rewrite Qb; apply Z|]. apply S, Q4.
    + destruct Q as (m' & Q1 & Q2 & Q3 & Q4). exists m', [(List.length (m_buf m ++ l ++ [LF]), 0%Z)].
      split; [exact Q1|]. split; [exact Q2|]. split; [rewrite Q3; reflexivity|].
      split; [destruct Q4 as (_ & Qb & _); rewrite Qb; apply Z|]. apply S in Q4. rewrite <- app_assoc in Q4. exact Q4.
  - apply size_iff in Hz. rewrite (CF_line_size m _ r l rest Hf Hr Hl), Hz. apply CF_stuck; [|exact Hr0].
    exists false, n. split; [|exact Hn]. unfold size_read. replace (n =? 0)%Z with false by lia. reflexivity.
  - apply size_iff in Hz. rewrite <- (app_nil_r (l ++ [LF])), <- app_assoc. rewrite (CF_line_size m _ r l [] Hf Hr Hl), Hz, CF_nil.
    eexists _, [(List.length (m_buf m ++ l ++ [LF]), n)]. split; [reflexivity|]. split; [reflexivity|]. split; [reflexivity|].
    split; [rewrite pieces_one; cbn [size_read set_creader set_reader set_chunks m_buf took set_buf]; apply slice_neg; exact Hn|]. apply moved_same; auto.
  - apply size_iff in Hz. rewrite (CF_line_size m _ r l d Hf Hr Hl), Hz.
    assert (Hrd : m_reader (size_read m l n) = Some (RChunk CChunk false n)) by (unfold size_read; replace (n =? 0)%Z with false by lia; reflexivity).
    assert (G : exists m', CF (size_read m l n) d = Ret (Some (m', [])) /\ m_mode m' = m_mode m /\ m_chunks m' = m_chunks m ++ [(List.length (m_buf m ++ l ++ [LF]), n)] /\
      m_buf m' = (m_buf m ++ l ++ [LF]) ++ d /\ m_head m' = m_head m /\ m_interim m' = m_interim m).
    { destruct d as [|c d].
      - exists (size_read m l n). rewrite CF_nil. rewrite app_nil_r. repeat split.
      - eexists. rewrite (CF_chunk_short (size_read m l n) false n (c :: d)); [|apply bwf_creader, bwf_chunks, bwf_took|exact Hrd|discriminate|exact Hn]. split; [reflexivity|]. repeat split. }
    destruct G as (m' & G1 & G2 & G3 & G4 & G5 & G6). exists m', [(List.length (m_buf m ++ l ++ [LF]), n)]. split; [exact G1|]. split; [exact G2|]. split; [exact G3|].
    split; [rewrite pieces_one, G4; apply slice_to_end; lia|]. apply moved_same; auto. rewrite G4, <- !app_assoc. reflexivity.
  - apply size_iff in Hz. rewrite (CF_line_size m _ r l _ Hf Hr Hl), Hz. set (n := Z.of_nat (List.length d)) in *.
    assert (Hn0 : (n =? 0)%Z = false) by (destruct d; [contradiction|]; unfold n; cbn [List.length]; lia).
    assert (Hrd : m_reader (size_read m l n) = Some (RChunk CChunk false n)) by (unfold size_read; rewrite Hn0; reflexivity).
    rewrite (CF_chunk_full (size_read m l n) false d more); [|apply bwf_creader, bwf_chunks, bwf_took|exact Hrd|exact Hd].
    assert (G : exists m', CF (set_creader (took (size_read m l n) d) CChunk false 0) more = Ret (Some (m', [])) /\ m_mode m' = m_mode m /\ m_chunks m' = m_chunks m ++ [(List.length (m_buf m ++ l ++ [LF]), n)] /\
      m_buf m' = (m_buf m ++ l ++ [LF]) ++ d ++ more /\ m_head m' = m_head m /\ m_interim m' = m_interim m).
    { destruct more as [|c more].
      - eexists. rewrite CF_nil. rewrite app_nil_r. split; [reflexivity|]. repeat split.
      - eexists. rewrite (CF_chunk_end (set_creader (took (size_read m l n) d) CChunk false 0) false (c :: more)); [|apply bwf_creader, bwf_took|reflexivity|discriminate].
        apply split_once_none in Hm. rewrite Hm. split; [reflexivity|]. cbn. rewrite <- !app_assoc. repeat split. }
    destruct G as (m' & G1 & G2 & G3 & G4 & G5 & G6). exists m', [(List.length (m_buf m ++ l ++ [LF]), n)]. split; [exact G1|]. split; [exact G2|]. split; [exact G3|].
    split; [rewrite pieces_one, G4; apply slice_at|]. apply moved_same; auto. rewrite G4, <- !app_assoc. reflexivity.
  - apply size_iff in Hz. rewrite (CF_line_size m _ r l _ Hf Hr Hl), Hz. set (n := Z.of_nat (List.length d)) in *.
    assert (Hn0 : (n =? 0)%Z = false) by (destruct d; [contradiction|]; unfold n; cbn [List.length]; lia).
    assert (Hrd : m_reader (size_read m l n) = Some (RChunk CChunk false n)) by (unfold size_read; rewrite Hn0; reflexivity).
    rewrite (CF_chunk_full (size_read m l n) false d _); [|apply bwf_creader, bwf_chunks, bwf_took|exact Hrd|exact Hd].
    rewrite (CF_chunk_end _ false); [|apply bwf_creader, bwf_took|reflexivity|apply app_ne_lf]. rewrite cut_lf by exact Hm.
    match goal with |- context [CF ?M more] => set (m1 := M) end.
    specialize (IH m1 0%Z eq_refl eq_refl Ht).
    set (L := l ++ [LF] ++ d ++ drop ++ [LF]).
    assert (Hb1 : m_buf m1 = m_buf m ++ L) by (unfold m1, L; cbn; rewrite <- !app_assoc; reflexivity).
    assert (EL : forall y, l ++ [LF] ++ d ++ drop ++ [LF] ++ y = L ++ y) by (intro y; unfold L; rewrite <- !app_assoc; reflexivity).
    assert (Hc1 : m_chunks m1 = m_chunks m ++ [(List.length (m_buf m ++ l ++ [LF]), n)]) by reflexivity.
    assert (S : forall m2 x t, moved m1 m2 x t -> moved m m2 (L ++ x) t).
    { intros m2 x t. apply (moved_step m m1 m2 L x t (h_trailers (m_head m))); [symmetry; apply set_trailers_eta|exact Hb1|reflexivity]. }
    assert (P : forall y, slice ((m_buf m ++ L) ++ y) (List.length (m_buf m ++ l ++ [LF])) (Z.of_nat (List.length (m_buf m ++ l ++ [LF])) + n) = d).
    { intro y. replace ((m_buf m ++ L) ++ y) with ((m_buf m ++ l ++ [LF]) ++ d ++ (drop ++ [LF] ++ y)) by (unfold L; rewrite <- !app_assoc; reflexivity). apply slice_at. }
    assert (Hm1 : m_mode m1 = m_mode m) by reflexivity. clearbody m1.
    destruct o as [[[[b t] [rest'|]]|]|e|]; cbn [put_data]; try exact IH.
    + destruct IH as (m' & new & x & -> & I1 & I2 & I3 & I4 & I5). exists m', ((List.length (m_buf m ++ l ++ [LF]), n) :: new), (L ++ x).
      split; [rewrite EL, app_assoc; reflexivity|]. split; [exact I1|]. split; [exact I2|]. split; [rewrite I3, Hc1, <- app_assoc; reflexivity|].
      split; [|apply S, I5]. change (?p :: new) with ([p] ++ new). rewrite pieces_app, I4, pieces_one. destruct I5 as (_ & I5 & _). rewrite I5, Hb1, P. reflexivity.
    + destruct IH as (m' & new & I1 & I2 & I3 & I4 & I5). exists m', ((List.length (m_buf m ++ l ++ [LF]), n) :: new).
      split; [exact I1|]. split; [rewrite I2; exact Hm1|]. split; [rewrite I3, Hc1, <- app_assoc; reflexivity|].
      split; [|rewrite EL; apply S, I5]. change (?p :: new) with ([p] ++ new). rewrite pieces_app, I4, pieces_one. destruct I5 as (_ & I5 & _). rewrite I5, Hb1, P. reflexivity.
Qed.

(** ** bodies *)
Section G.
Variable gz : bytes -> outcome bytes.
(** the parser shows what the specification says about the body *)
Definition body_shown (m : msg) (x : outcome (msg * bytes)) (o : outcome body_result) : Prop :=
  match o with
  | Ret r => exists m', x = Ret (m', b_unread r) /\ complete m' = b_complete r /\ headers_complete m' = true /\
               get_body m' = b_body r /\ moved m m' (b_taken r) (b_trailers r)
  | Raise e => x = Raise e
  | Diverge => x = Diverge
  end.
Lemma get_body_pieces m : get_body m = pieces (m_buf m) (m_chunks m). Proof. reflexivity. Qed.
Lemma mode_of hd s ign l : head_facts hd s ign l -> h_mode hd =
  if says_chunked (ignored ign) l then MChunked else match length_value (ignored ign) l with Some _ => MLength | None => MClose end.
Proof.
  intro F. rewrite (hf_mode _ _ _ _ F). unfold mode_after, length_value. destruct (says_chunked _ _); [reflexivity|]. destruct (named _ _ _); reflexivity.
Qed.
Lemma has_body_iff hd s ign l : head_facts hd s ign l -> has_body hd = false <->
  has_none s \/ (exists a b c d, s = KRequest a b c d) /\ says_chunked (ignored ign) l = false /\ length_value (ignored ign) l = None.
Proof.
  intro F. rewrite (has_body_facts _ _ _ _ F), (mode_of _ _ _ _ F). destruct s as [a b c d|rm a code p]; cbn [has_none].
  - destruct (says_chunked (ignored ign) l) eqn:E1; [split; [discriminate|intros [[]|(_ & X & _)]; discriminate]|].
    destruct (length_value (ignored ign) l) eqn:E2; [split; [discriminate|intros [[]|(_ & _ & X)]; discriminate]|].
    split; [|reflexivity]. intros _. right. split; [eauto 6|auto].
  - rewrite Bool.negb_false_iff, bodyless_iff. split; [auto|]. intros [H|((x & y & z & w & X) & _)]; [exact H|discriminate].
Qed.
Lemma raw_run m o text : m_chunks m = [(o, 0%Z)] -> o = List.length (m_buf m) -> m_mode m = Body -> h_trailers (m_head m) = [] ->
  body_shown m (raw_body m text) (Ret (mkres false text [] text [])).
Proof.
  intros Hc -> Hm Ht. unfold raw_body. rewrite Hc. cbn [body_shown b_unread b_complete b_body b_taken b_trailers]. eexists. split; [reflexivity|]. split; [unfold complete; cbn; rewrite Hm; reflexivity|].
  split; [unfold headers_complete; cbn; rewrite Hm; reflexivity|]. split.
  - rewrite get_body_pieces. cbn [m_chunks set_chunks m_buf set_buf]. rewrite pieces_one. apply slice_to_end. lia.
  - apply moved_same; auto.
Qed.
Lemma body_run m s ign l fr text o : m_mode m = Body -> flush m -> m_chunks m = [] -> m_reader m = None ->
  head_facts (m_head m) s ign l -> framed ign s l fr -> body_read gz fr text o ->
  body_shown m (bind (begin_body gz m text) (fun m2 => base_feed gz m2 text)) o.
Proof.
  intros Hm Hf Hc Hr F Hfr Hb. pose proof (hf_trailers _ _ _ _ F) as Ht. pose proof (has_body_iff _ _ _ _ F) as HB. pose proof (mode_of _ _ _ _ F) as HM.
  assert (None_ : has_body (m_head m) = false -> bind (begin_body gz m text) (fun m2 => base_feed gz m2 text) = Ret (set_mode m End, text)).
  { intro E. unfold begin_body. rewrite E. cbn [negb bind]. apply BF_done. auto. }
  assert (NoneS : body_shown m (Ret (set_mode m End, text)) (Ret (mkres true [] [] [] text))).
  { eexists. split; [reflexivity|]. split; [reflexivity|]. split; [reflexivity|]. split; [rewrite get_body_pieces; cbn; rewrite Hc; reflexivity|]. apply moved_same; auto. cbn. rewrite app_nil_r. reflexivity. }
  destruct Hfr as [Hn|Hn Hch|v n Hn Hch Hl Hv|a b c d Hs Hch Hl|a b c d Hs Hn Hch Hl].
  - inversion Hb; subst. rewrite None_ by (apply HB; auto). exact NoneS.
  - assert (E : has_body (m_head m) = true).
    { destruct (has_body (m_head m)); [reflexivity|]. destruct (proj1 HB eq_refl) as [X|(_ & X & _)]; [contradiction|congruence]. }
    assert (Em : body_is_chunked (m_head m) = true) by (unfold body_is_chunked; rewrite HM, Hch; reflexivity).
    unfold begin_body. rewrite E, Em. cbn [negb bind]. set (m1 := set_creader m CStart true 0).
    assert (Hm1 : m_mode m1 = Body) by exact Hm. rewrite (BF_chunk gz m1 text Hm1) by (eexists _, _, _; reflexivity). unfold cf_result.
    assert (Q := fun o H => CF_any true text o H m1 0%Z Hf eq_refl Ht).
    inversion Hb; subst; match goal with H : chunks_read true _ _ |- _ => apply Q in H; clear Q end; cbn [body_shown b_unread b_complete b_body b_taken b_trailers].
    + match goal with H : exists _ _, _ |- _ => destruct H as (m' & new & -> & H2 & H3 & H4 & H5) end. cbn [bind]. exists m'. split; [reflexivity|].
      unfold complete, headers_complete. rewrite H2, Hm1. split; [reflexivity|]. split; [reflexivity|]. split; [|exact H5].
      rewrite get_body_pieces, H3. change (m_chunks m1) with (m_chunks m). rewrite Hc. exact H4.
    + match goal with H : exists _ _ _, _ |- _ => destruct H as (m' & new & x & E1 & -> & H2 & H3 & H4 & H5) end. apply app_inv_tail in E1. subst x. cbn [bind]. exists m'. split; [reflexivity|].
      unfold complete, headers_complete. rewrite H2. split; [reflexivity|]. split; [reflexivity|]. split; [|exact H5].
      rewrite get_body_pieces, H3. change (m_chunks m1) with (m_chunks m). rewrite Hc. exact H4.
    + match goal with H : CF _ _ = _ |- _ => rewrite H end. cbn [bind].
      exact (raw_run (set_chunks (set_reader m1 None) [(List.length (m_buf m1), 0%Z)]) _ text eq_refl eq_refl Hm Ht).
    + match goal with H : CF _ _ = _ |- _ => rewrite H end. reflexivity.
    + match goal with H : CF _ _ = _ |- _ => rewrite H end. reflexivity.
  - assert (E : has_body (m_head m) = true).
    { destruct (has_body (m_head m)); [reflexivity|]. destruct (proj1 HB eq_refl) as [X|(_ & _ & X)]; [contradiction|congruence]. }
    assert (Em : body_is_chunked (m_head m) = false) by (unfold body_is_chunked; rewrite HM, Hch, Hl; reflexivity).
    assert (El : body_length (m_head m) = Some n).
    { unfold body_length. rewrite HM, Hch, Hl. destruct (hf_length _ _ _ _ F Hch v Hl) as (z & Ez & ->). congruence. }
    assert (Eg : match h_encoding (m_head m) with Some e => endswith (B "gzip") e | None => false end = gzip_coded ign l) by (rewrite (hf_coding _ _ _ _ F); reflexivity).
    unfold begin_body. rewrite E, Em, El, Eg. cbn [negb].
    assert (Len : forall r : reader, m_off m = List.length (m_buf m)) by (intros _; exact Hf).
    destruct (gzip_coded ign l); [|set (m1 := set_chunks (set_reader m (Some (RLength n))) [(m_off m, n)])].
    + unfold zip_reader. unfold py_take.
      assert (Big : forall z (d : bytes), d <> [] ->
         (text = [] -> body_shown m (base_feed gz (set_chunks (set_reader m (Some (RZip z (Z.of_nat (List.length d))))) [(m_off m, Z.of_nat (List.length d))]) text) (Ret (mkres false [] [] [] []))) /\
         (text <> [] -> d = match z with Some t => t | None => text end ->
            body_shown m (base_feed gz (set_chunks (set_reader m (Some (RZip z (Z.of_nat (List.length d))))) [(m_off m, Z.of_nat (List.length d))]) text) (Ret (mkres true d [] d [])))).
      { intros z d Hd. set (m1 := set_chunks _ _). split.
        - intros ->. rewrite BF_nil. exists m1. split; [reflexivity|]. unfold complete, headers_complete. change (m_mode m1) with (m_mode m). rewrite Hm. split; [reflexivity|]. split; [reflexivity|].
          split; [|apply moved_same; auto; cbn; rewrite app_nil_r; reflexivity]. rewrite get_body_pieces. unfold m1. cbn [m_chunks set_chunks m_buf set_reader]. rewrite pieces_one, (Len (RLength 0)).
          unfold slice. rewrite skipn_all. apply firstn_nil.
        - intros Htx Ed. rewrite BF_body by (try exact Hm; exact Htx). unfold feed_body. change (m_reader m1) with (Some (RZip z (Z.of_nat (List.length d)))).
          assert (Hp : (0 < Z.of_nat (List.length d))%Z) by (destruct d; [contradiction|cbn [List.length]; lia]).
          unfold zip_feed. replace (0 <? Z.of_nat (List.length d))%Z with true by lia. rewrite <- Ed. rewrite took_firstn by exact Hp. rewrite Nat2Z.id, firstn_all, skipn_all, Z.sub_diag. cbn [Z.leb Z.compare].
          eexists. split; [reflexivity|]. split; [reflexivity|]. split; [reflexivity|]. split; [|apply moved_same; auto].
          rewrite get_body_pieces. unfold m1. cbn [m_chunks set_chunks m_buf set_reader set_mode took set_buf]. rewrite pieces_one, (Len (RLength 0)). apply slice_to_end. apply Z.le_refl. }
      assert (Zero : forall z, body_shown m (base_feed gz (set_mode (set_chunks (set_reader m (Some (RZip z 0%Z))) [(m_off m, 0%Z)]) End) text) (Ret (mkres true [] [] [] text))).
      { intro z. rewrite BF_done by auto. eexists. split; [reflexivity|]. split; [reflexivity|]. split; [reflexivity|]. split; [|apply moved_same; auto; cbn; rewrite app_nil_r; reflexivity].
        rewrite get_body_pieces. cbn [m_chunks set_chunks m_buf set_reader set_mode]. rewrite pieces_one, (Len (RLength 0)). rewrite <- (app_nil_r (m_buf m)) at 1. apply slice_at0. }
      inversion Hb; subst; match goal with H : gz _ = _ |- _ => rewrite H end; cbn [bind reader_remaining].
      * match goal with H : ?x <> [], _ : gz _ = Ret ?x |- _ => destruct (Big (Some x) x H) as [_ B2]; replace (Z.of_nat (List.length x) =? 0)%Z with false by (destruct x; [contradiction|cbn [List.length]; lia]); apply B2; [assumption|reflexivity] end.
      * match goal with H : ?x <> [], _ : gz _ = Ret ?x |- _ => destruct (Big (Some x) x H) as [B1 _]; replace (Z.of_nat (List.length x) =? 0)%Z with false by (destruct x; [contradiction|cbn [List.length]; lia]); apply B1; reflexivity end.
      * apply Zero.
      * destruct text as [|c t]; [apply Zero|]. destruct (Big None (c :: t)) as [_ B2]; [discriminate|].
        replace (Z.of_nat (List.length (c :: t)) =? 0)%Z with false by (cbn [List.length]; lia). apply B2; [discriminate|reflexivity].
      * destruct e; try reflexivity. contradiction.
      * reflexivity.
    + cbn [bind reader_remaining]. fold m1.
      assert (Sh : forall m' x b, m_head m' = m_head m -> m_buf m' = m_buf m ++ x -> m_interim m' = m_interim m -> m_chunks m' = [(List.length (m_buf m), n)] ->
        (n <= 0)%Z /\ x = [] \/ (Z.of_nat (List.length x) <= n)%Z -> m_mode m' = (if b : bool then End else Body) ->
        complete m' = b /\ headers_complete m' = true /\ get_body m' = x /\ moved m m' x []).
      { intros m' x b A1 A2 A3 A4 A5 A6. unfold complete, headers_complete. rewrite A6. split; [destruct b; reflexivity|]. split; [destruct b; reflexivity|].
        split; [|apply moved_same; auto]. rewrite get_body_pieces, A4, A2, pieces_one. destruct A5 as [[A5 ->]|A5]; [|apply slice_to_end; exact A5].
        unfold slice. rewrite app_nil_r, skipn_all. apply firstn_nil. }
      assert (Hm1 : m_mode m1 = Body) by exact Hm. assert (Hrd : m_reader m1 = Some (RLength n)) by reflexivity.
      inversion Hb; subst; cbn [body_shown b_unread b_complete b_body b_taken b_trailers].
      * destruct b as [|c b].
        { cbn [List.length Z.of_nat Z.eqb app]. rewrite BF_done by auto. eexists. split; [reflexivity|]. apply (Sh _ [] true); try reflexivity; [cbn; rewrite app_nil_r; reflexivity|unfold m1; cbn; rewrite (Len (RLength 0)); reflexivity|left; split; [cbn; lia|reflexivity]]. }
        set (d := c :: b) in *. replace (Z.of_nat (List.length d) =? 0)%Z with false by (unfold d; cbn [List.length]; lia).
        rewrite (BF_length gz m1 (Z.of_nat (List.length d)) (d ++ rest) Hm1 eq_refl) by discriminate.
        rewrite length_feed_pos by (unfold d; cbn [List.length]; lia). rewrite Nat2Z.id, firstn_app, firstn_all, Nat.sub_diag, skipn_app, skipn_all, Nat.sub_diag. cbn [firstn skipn app]. rewrite app_nil_r.
        replace (Z.of_nat (List.length d) <=? Z.of_nat (List.length (d ++ rest)))%Z with true by (rewrite app_length; lia).
        eexists. split; [reflexivity|]. apply (Sh _ d true); try reflexivity; [unfold m1; cbn; rewrite (Len (RLength 0)); reflexivity|right; lia].
      * assert (Hpos : (0 < n)%Z) by lia. replace (n =? 0)%Z with false by lia. destruct text as [|c t].
        { rewrite BF_nil. eexists. split; [reflexivity|]. apply (Sh _ [] false); try reflexivity; [cbn; rewrite app_nil_r; reflexivity|unfold m1; cbn; rewrite (Len (RLength 0)); reflexivity|right; exact (Z.lt_le_incl _ _ H0)|exact Hm]. }
        rewrite (BF_length gz m1 n (c :: t) Hm1 eq_refl) by discriminate. rewrite length_feed_pos by exact Hpos. rewrite firstn_all2, skipn_all2 by lia.
        replace (n <=? Z.of_nat (List.length (c :: t)))%Z with false by lia. eexists. split; [reflexivity|].
        apply (Sh _ (c :: t) false); try reflexivity; [unfold m1; cbn; rewrite (Len (RLength 0)); reflexivity|right; lia|exact Hm].
      * replace (n =? 0)%Z with false by lia. rewrite (BF_length gz m1 n text Hm1 eq_refl) by assumption. unfold length_feed. replace (0 <? n)%Z with false by lia. replace (n <=? 0)%Z with true by lia.
        eexists. split; [reflexivity|]. apply (Sh _ [] true); try reflexivity; [cbn; rewrite app_nil_r; reflexivity|unfold m1; cbn; rewrite (Len (RLength 0)); reflexivity|left; split; [lia|reflexivity]].
      * replace (n =? 0)%Z with false by lia. rewrite BF_nil. eexists. split; [reflexivity|].
        apply (Sh _ [] false); try reflexivity; [cbn; rewrite app_nil_r; reflexivity|unfold m1; cbn; rewrite (Len (RLength 0)); reflexivity|left; split; [lia|reflexivity]|exact Hm].
  - inversion Hb; subst. rewrite None_ by (apply HB; right; split; [eauto 6|auto]). exact NoneS.
  - inversion Hb; subst. assert (E : has_body (m_head m) = true).
    { destruct (has_body (m_head m)); [reflexivity|]. destruct (proj1 HB eq_refl) as [X|((x & y & z & w & X) & _)]; [contradiction|discriminate]. }
    assert (Em : body_is_chunked (m_head m) = false) by (unfold body_is_chunked; rewrite HM, Hch, Hl; reflexivity).
    assert (El : body_length (m_head m) = None) by (unfold body_length; rewrite HM, Hch, Hl; reflexivity).
    unfold begin_body. rewrite E, Em, El. cbn [negb bind]. set (m1 := set_reader (set_chunks m [(m_off m, 0%Z)]) None).
    assert (Q : base_feed gz m1 text = raw_body m1 text).
    { destruct text as [|c0 t]; [|rewrite BF_body by (try exact Hm; discriminate); reflexivity]. rewrite BF_nil. unfold raw_body, m1. cbn [m_chunks set_chunks set_reader m_buf]. rewrite app_nil_r.
      cbn [List.length]. unfold set_chunks, set_buf, set_reader. cbn. rewrite <- (Hf : m_off m = List.length (m_buf m)). reflexivity. }
    rewrite Q. exact (raw_run m1 _ text eq_refl (Hf : m_off m = List.length (m_buf m)) Hm Ht).
Qed.
End G.
