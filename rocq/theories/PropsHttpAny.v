(** C84: what the HTTP parser makes of any bytes whatsoever. *)
From Verif Require Import RegexFacts.
From Verif Require Export HttpAnyRun.
From Coq Require Import String List Lia ZArith.
Open Scope list_scope.

Section G.
Variable gz : bytes -> outcome bytes.
Lemma BF_line m l rest : m_mode m = Headers -> flush m -> no_lf l -> base_feed gz m (l ++ [LF] ++ rest) =
  bind (add_header_line (m_head m) (l ++ [LF])) (fun h =>
    let m' := set_head (took m (l ++ [LF])) h in
    if in_list (l ++ [LF]) NEWLINES then bind (begin_body gz (set_mode m' Body) rest) (fun m2 => base_feed gz m2 rest) else base_feed gz m' rest).
Proof.
  intros Hm Hf Hl. rewrite BF_headers by (try exact Hm; try apply flush_bwf, Hf; apply app_ne_lf). rewrite cut_lf by exact Hl.
  rewrite (flush_pending m Hf). reflexivity.
Qed.
Definition same_else (m m' : msg) (x : bytes) : Prop :=
  m_buf m' = m_buf m ++ x /\ m_chunks m' = m_chunks m /\ m_reader m' = m_reader m /\ m_interim m' = m_interim m.
Lemma same_step m m1 m2 x y : same_else m m1 x -> same_else m1 m2 y -> same_else m m2 (x ++ y).
Proof. intros (A1 & A2 & A3 & A4) (B1 & B2 & B3 & B4). split; [rewrite B1, A1, app_assoc; reflexivity|]. split; [congruence|]. split; congruence. Qed.
Lemma BF_lines acc text o : lines_read acc text o -> forall m, m_mode m = Headers -> flush m -> h_headers (m_head m) = acc ->
  match o with
  | Ret (t, None) => exists m', base_feed gz m text = Ret (m', []) /\ m_mode m' = Headers /\ m_head m' = set_headers (m_head m) t /\ same_else m m' text
  | Ret (t, Some rest) => exists m' x, text = x ++ rest /\ flush m' /\ same_else m m' x /\
      base_feed gz m text = bind (note_headers (set_headers (m_head m) t) t) (fun h => let m2 := set_mode (set_head m' h) Body in
                              bind (begin_body gz m2 rest) (fun m3 => base_feed gz m3 rest))
  | Raise e => base_feed gz m text = Raise e
  | Diverge => False
  end.
Proof.
  induction 1 as [acc text Hl|acc l rest Hb|acc k v l rest o Hl Hs H IH|l rest Hl Hs|acc n v rest o Hn Hv Hc Hs H IH|acc l rest Hl Hb Hs Hc]; intros m Hm Hf Ha.
  - destruct text as [|c t].
    + exists m. split; [apply BF_nil|]. split; [exact Hm|]. split; [rewrite <- Ha, set_headers_eta; reflexivity|]. split; [rewrite app_nil_r; reflexivity|auto].
    + exists (pushed m (c :: t)). rewrite (BF_headers gz m _ Hm (flush_bwf m Hf)) by discriminate. apply split_once_none in Hl. rewrite Hl.
      split; [reflexivity|]. split; [exact Hm|]. split; [rewrite <- Ha, set_headers_eta; reflexivity|]. repeat split.
  - exists (took m (l ++ [LF])), (l ++ [LF]). split; [rewrite <- app_assoc; reflexivity|]. split; [apply flush_took|]. split; [repeat split|].
    rewrite (BF_line m l rest Hm Hf (blank_no_lf l Hb)). unfold add_header_line. rewrite folded_lf, (blank_not_folded l Hb), (proj2 (blank_iff l) Hb), Ha.
    rewrite <- Ha, set_headers_eta. reflexivity.
  - rewrite (BF_line m l rest Hm Hf Hl). unfold add_header_line. rewrite folded_lf, Hs, Ha, fold_last_snoc, strip_lf. cbn [bind].
    assert (Hnb : ~ blank l) by (intro X; apply blank_not_folded in X; congruence). rewrite (not_blank l Hnb). cbv zeta.
    match goal with |- context [base_feed gz ?M rest] => set (m1 := M) end. specialize (IH m1 Hm (flush_took m (l ++ [LF])) eq_refl).
    assert (S1 : same_else m m1 (l ++ [LF])) by repeat split.
    destruct o as [[t [rest'|]]|e|]; [| |exact IH|exact IH].
    + destruct IH as (m' & x & -> & I1 & I2 & I3). exists m', ((l ++ [LF]) ++ x). split; [rewrite <- !app_assoc; reflexivity|]. split; [exact I1|]. split; [exact (same_step _ _ _ _ _ S1 I2)|exact I3].
    + destruct IH as (m' & I1 & I2 & I3 & I4). exists m'. split; [exact I1|]. split; [exact I2|]. split; [exact I3|]. rewrite app_assoc. exact (same_step _ _ _ _ _ S1 I4).
  - rewrite (BF_line m l rest Hm Hf Hl). unfold add_header_line. rewrite folded_lf, Hs, Ha. reflexivity.
  - assert (Hl : no_lf (n ++ [COLON] ++ v)) by (intro X; apply in_app_or in X as [X|[X|X]]; [contradiction|discriminate|contradiction]).
    assert (Hsb : starts_blank (n ++ [COLON] ++ v) = false) by (destruct n; [reflexivity|exact Hs]).
    rewrite (BF_line m _ rest Hm Hf Hl). unfold add_header_line. rewrite folded_lf, Hsb, field_lf by exact Hc.
    assert (Hnb : ~ blank (n ++ [COLON] ++ v)).
    { intros [E|E]; destruct n as [|c n]; try discriminate. cbn [app] in E. injection E as _ E. destruct n; discriminate. }
    rewrite (not_blank _ Hnb), Ha. cbn [bind]. cbv zeta.
    match goal with |- context [base_feed gz ?M rest] => set (m1 := M) end. specialize (IH m1 Hm (flush_took m _) eq_refl).
    set (L := (n ++ [COLON] ++ v) ++ [LF]) in *.
    assert (S1 : same_else m m1 L) by repeat split.
    assert (EL : forall y, (n ++ [COLON] ++ v) ++ [LF] ++ y = L ++ y) by (intro y; unfold L; rewrite <- !app_assoc; reflexivity).
    destruct o as [[t [rest'|]]|e|]; [| |exact IH|exact IH].
    + destruct IH as (m' & x & -> & I1 & I2 & I3). exists m', (L ++ x). split; [rewrite EL, app_assoc; reflexivity|]. split; [exact I1|]. split; [exact (same_step _ _ _ _ _ S1 I2)|exact I3].
    + destruct IH as (m' & I1 & I2 & I3 & I4). exists m'. split; [exact I1|]. split; [exact I2|]. split; [exact I3|]. rewrite EL. exact (same_step _ _ _ _ _ S1 I4).
  - rewrite (BF_line m l rest Hm Hf Hl). unfold add_header_line. rewrite folded_lf, Hs, (not_blank l Hb), (no_field_lf l Hc). reflexivity.
Qed.

(** ** What a user sees of a message parser: its methods complete(), headers_complete(),
    get_body() and get_message(), the attributes of its header, and [interim] *)
Definition look (m : msg) : view :=
  mkview (complete m) (headers_complete m) (h_kind (m_head m)) (h_headers (m_head m)) (h_trailers (m_head m))
    (h_keep_alive (m_head m)) (h_expect (m_head m)) (get_body m) (get_message m)
    (map (fun h => (h_kind h, h_headers h)) (m_interim m)).
Definition seen (x : outcome (msg * bytes)) : outcome (view * bytes) :=
  match x with Ret (m, rest) => Ret (look m, rest) | Raise e => Raise e | Diverge => Diverge end.
(** the same, for a parser that has read something already *)
Definition onto (m : msg) (o : outcome (view * bytes)) : outcome (view * bytes) :=
  match o with
  | Ret (v, rest) => Ret (mkview (v_complete v) (v_headers_complete v) (v_start v) (v_headers v) (v_trailers v) (v_keep_alive v) (v_expect v)
                           (v_body v) (m_buf m ++ v_message v) (map (fun h => (h_kind h, h_headers h)) (m_interim m)), rest)
  | _ => o
  end.
Lemma start_fields kind ign : h_kind (start_hdr kind ign) = unread_start kind /\ h_headers (start_hdr kind ign) = [] /\ h_trailers (start_hdr kind ign) = [] /\
  h_keep_alive (start_hdr kind ign) = false /\ h_expect (start_hdr kind ign) = false /\ kind_of (h_kind (start_hdr kind ign)) kind.
Proof. destruct kind; repeat split. Qed.
Lemma early_look m kind ign x : fresh_at m kind ign -> forall m', m_head m' = m_head m -> m_buf m' = m_buf m ++ x -> m_chunks m' = m_chunks m -> m_interim m' = m_interim m -> m_mode m' = Start ->
  look m' = mkview false false (unread_start kind) [] [] false false [] (m_buf m ++ x) (map (fun h => (h_kind h, h_headers h)) (m_interim m)).
Proof.
  intros (F1 & F2 & F3 & F4 & F5) m' H1 H2 H3 H4 H5. destruct (start_fields kind ign) as (S1 & S2 & S3 & S4 & S5 & _).
  unfold look, complete, headers_complete. rewrite H5, H1, F5, S1, S2, S3, S4, S5, H4. rewrite get_body_pieces, H3, F3. unfold get_message. rewrite H2. reflexivity.
Qed.
Lemma one_run m kind ign text o : fresh_at m kind ign -> one_read gz kind ign text o -> seen (base_feed gz m text) = onto m o.
Proof.
  intros Hfr Ho. pose proof Hfr as (F1 & F2 & F3 & F4 & F5). destruct (start_fields kind ign) as (S1 & S2 & S3 & S4 & S5 & S6).
  assert (Start_ : forall l rest, no_lf l -> ~ blank l -> base_feed gz m (l ++ [LF] ++ rest) =
     bind (set_start_line (m_head m) (l ++ [LF])) (fun h => base_feed gz (set_mode (set_head (took m (l ++ [LF])) h) Headers) rest)).
  { intros l rest Hl Hb. rewrite BF_start by (try exact F1; try apply flush_bwf, F2; apply app_ne_lf). rewrite cut_lf by exact Hl. rewrite (flush_pending m F2). cbn [app]. cbv zeta.
    rewrite (not_blank l Hb). reflexivity. }
  assert (Begun : forall l rest s, no_lf l -> ~ blank l -> start_line kind l s -> exists m1, base_feed gz m (l ++ [LF] ++ rest) = base_feed gz m1 rest /\
     m_mode m1 = Headers /\ flush m1 /\ m_head m1 = set_kind (start_hdr kind ign) s /\ same_else m m1 (l ++ [LF])).
  { intros l rest s Hl Hb Hs. rewrite Start_ by assumption. rewrite F5. rewrite (start_complete kind (start_hdr kind ign) l s S6 S4 Hl Hs). cbn [bind]. eexists. split; [reflexivity|]. repeat split. }
  destruct Ho as [text Hl|l rest Hb|l rest Hl Hb Hs|l rest s fields Hl Hb Hs Hr|l rest s e Hl Hb Hs Hr|l rest s fields body Hl Hb Hs Hr Hbad|l h body s fields fr o Hl Hb Hs Hr Hbad Hfd Hbr].
  - destruct text as [|c t].
    + rewrite BF_nil. cbn [seen onto early v_complete v_headers_complete v_start v_headers v_trailers v_keep_alive v_expect v_body v_message]. f_equal. f_equal. apply (early_look m kind ign []); auto. rewrite app_nil_r. reflexivity.
    + rewrite BF_start by (try exact F1; try apply flush_bwf, F2; discriminate). apply split_once_none in Hl. rewrite Hl. cbn [seen onto early v_complete v_headers_complete v_start v_headers v_trailers v_keep_alive v_expect v_body v_message].
      f_equal. f_equal. apply (early_look m kind ign (c :: t)); auto.
  - rewrite BF_start by (try exact F1; try apply flush_bwf, F2; apply app_ne_lf). rewrite cut_lf by (apply blank_no_lf; exact Hb). rewrite (flush_pending m F2). cbn [app]. cbv zeta. rewrite (proj2 (blank_iff l) Hb).
    cbn [seen onto early v_complete v_headers_complete v_start v_headers v_trailers v_keep_alive v_expect v_body v_message]. f_equal. f_equal. apply (early_look m kind ign (l ++ [LF])); auto.
  - rewrite Start_ by assumption. rewrite F5. destruct (start_sound kind (start_hdr kind ign) l S6 Hl) as [[s X]|E]; [destruct (Hs s X)|]. rewrite E. reflexivity.
  - destruct (Begun l rest s Hl Hb Hs) as (m1 & -> & M1 & M2 & M3 & M4). pose proof (BF_lines [] rest _ Hr m1 M1 M2) as Q. cbn beta iota in Q.
    destruct Q as (m' & -> & Q2 & Q3 & Q4); [rewrite M3; exact S2|]. cbn [seen onto early v_complete v_headers_complete v_start v_headers v_trailers v_keep_alive v_expect v_body v_message]. f_equal. f_equal.
    pose proof (same_step _ _ _ _ _ M4 Q4) as (E1 & E2 & E3 & E4). unfold look, complete, headers_complete. rewrite Q2, Q3, M3. cbn [h_kind h_headers h_trailers h_keep_alive h_expect set_headers set_kind].
    rewrite S3, S4, S5, E4. rewrite get_body_pieces, E2, F3. unfold get_message. rewrite E1, <- !app_assoc. reflexivity.
  - destruct (Begun l rest s Hl Hb Hs) as (m1 & -> & M1 & M2 & M3 & M4). pose proof (BF_lines [] rest _ Hr m1 M1 M2) as Q. cbn beta iota in Q.
    rewrite Q; [reflexivity|]. rewrite M3. exact S2.
  - destruct (Begun l rest s Hl Hb Hs) as (m1 & -> & M1 & M2 & M3 & M4). pose proof (BF_lines [] rest _ Hr m1 M1 M2) as Q. cbn beta iota in Q.
    destruct Q as (m' & x & _ & _ & _ & ->); [rewrite M3; exact S2|]. rewrite M3.
    destruct (note_exact fields (set_headers (set_kind (start_hdr kind ign) s) fields)) as [(h' & _ & X)|[E _]]; [destruct kind; reflexivity| |rewrite E; reflexivity].
    exfalso. apply X. destruct kind; exact Hbad.
  - destruct (Begun l (h ++ body) s Hl Hb Hs) as (m1 & E & M1 & M2 & M3 & M4). rewrite E. clear E. pose proof (BF_lines [] _ _ Hr m1 M1 M2) as Q. cbn beta iota in Q.
    destruct Q as (m' & x & Ex & Qf & Q2 & ->); [rewrite M3; exact S2|]. apply app_inv_tail in Ex. subst x. rewrite M3.
    destruct (note_exact fields (set_headers (set_kind (start_hdr kind ign) s) fields)) as [(hd & E & _)|[_ X]]; [destruct kind; reflexivity| |exfalso; apply Hbad; destruct kind; exact X].
    assert (F : head_facts hd s ign fields) by (apply (note_facts (set_headers (set_kind (start_hdr kind ign) s) fields)); [destruct kind; repeat split|exact E]).
    rewrite E. cbn [bind]. cbv zeta. pose proof (same_step _ _ _ _ _ M4 Q2) as (E1 & E2 & E3 & E4).
    pose proof (body_run gz (set_mode (set_head m' hd) Body) s ign fields fr body o eq_refl Qf (eq_trans E2 F3) (eq_trans E3 F4) F Hfd Hbr) as R.
    destruct o as [r|e|]; cbn [body_shown] in R; [|rewrite R; reflexivity|rewrite R; reflexivity].
    destruct R as (m2 & -> & R2 & R3 & R4 & (R5 & R6 & R7)). cbn [seen onto with_body v_complete v_headers_complete v_start v_headers v_trailers v_keep_alive v_expect v_body v_message]. f_equal. f_equal.
    unfold look. rewrite R2, R3, R4, R5, R7. cbn [m_head set_mode set_head m_interim]. cbn [h_kind h_headers h_trailers h_keep_alive h_expect set_trailers].
    rewrite (hf_kind _ _ _ _ F), (hf_headers _ _ _ _ F), (hf_keep _ _ _ _ F), (hf_expect _ _ _ _ F), E4.
    unfold get_message. rewrite R6. cbn [m_buf set_mode set_head]. rewrite E1, <- !app_assoc. reflexivity.
Qed.

(** ** Every text is read in one way *)
Lemma lines_suffix acc text o : lines_read acc text o -> forall t rest, o = Ret (t, Some rest) -> exists x, text = x ++ rest.
Proof.
  induction 1 as [acc text Hl|acc l rest Hb|acc k v l rest o Hl Hs H IH|l rest Hl Hs|acc n v rest o Hn Hv Hc Hs H IH|acc l rest Hl Hb Hs Hc]; intros t r E; try discriminate.
  - injection E as _ <-. exists (l ++ [LF]). rewrite <- app_assoc. reflexivity.
  - destruct (IH t r E) as [x ->]. exists (l ++ [LF] ++ x). rewrite <- !app_assoc. reflexivity.
  - destruct (IH t r E) as [x ->]. exists ((n ++ [COLON] ++ v) ++ [LF] ++ x). rewrite <- !app_assoc. reflexivity.
Qed.
Lemma chunks_suffix first text o : chunks_read first text o -> forall d t rest, o = Ret (Some (d, t, Some rest)) -> exists x, text = x ++ rest.
Proof.
  induction 1 as [first text Hl|l rest Hl Hs|l rest Hl Hs|first l rest o Hl Hs Hr|first l n rest Hl Hs Hn Hr|first l n Hl Hs Hn|first l n d Hl Hs Hn|first l d more Hl Hd Hs Hm|first l d drop more o Hl Hd Hs Hm Hc IH]; intros d' t' r E; try discriminate.
  - destruct o as [[t [r'|]]|e|]; try discriminate. cbn [put_trailers] in E. injection E as _ _ ->. destruct (lines_suffix _ _ _ Hr _ _ eq_refl) as [x ->].
    exists (l ++ [LF] ++ x). rewrite <- !app_assoc. reflexivity.
  - destruct o as [[[[b t] [r'|]]|]|e|]; try discriminate. cbn [put_data] in E. injection E as _ _ ->. destruct (IH _ _ _ eq_refl) as [x ->].
    exists (l ++ [LF] ++ d ++ drop ++ [LF] ++ x). rewrite <- !app_assoc. reflexivity.
Qed.
Lemma body_total fr text : exists o, body_read gz fr text o.
Proof.
  destruct fr as [| |n|n|]; [eexists; apply br_none| | | |eexists; apply br_close].
  - destruct (chunks_total _ true text (le_n _)) as [[[[[d t] [rest|]]|]|e|] H].
    + destruct (chunks_suffix _ _ _ H _ _ _ eq_refl) as [x ->]. eexists. eapply br_chunks_done. exact H.
    + eexists. eapply br_chunks_open. exact H.
    + eexists. apply br_not_chunks. exact H.
    + eexists. apply br_chunks_raise. exact H.
    + eexists. apply br_chunks_loop. exact H.
  - destruct (Z_lt_le_dec n 0) as [Hz|Hz].
    { destruct text as [|c text]; eexists; [apply br_negative_end; exact Hz|apply br_negative; [exact Hz|discriminate]]. }
    destruct (Z_lt_le_dec (Z.of_nat (List.length text)) n) as [Hs|Hs]; [eexists; apply br_short; exact Hs|].
    assert (Hd : Z.of_nat (List.length (firstn (Z.to_nat n) text)) = n) by (rewrite firstn_length; lia).
    assert (E : text = firstn (Z.to_nat n) text ++ skipn (Z.to_nat n) text) by (symmetry; apply firstn_skipn). revert Hd E.
    generalize (firstn (Z.to_nat n) text) (skipn (Z.to_nat n) text). intros d more Hd ->. subst n. eexists. apply br_full.
  - destruct (gz (slice text 0 n)) as [d|e|] eqn:E; [| |eexists; apply br_gz_loop; exact E].
    + destruct d as [|c d]; [eexists; apply br_gz_empty; exact E|]. destruct text as [|x text]; eexists; [eapply br_gz_wait|eapply br_gz]; try exact E; discriminate.
    + assert (D : e = EOSError \/ e <> EOSError) by (destruct e; auto; right; discriminate).
      destruct D as [->|D]; eexists; [apply br_gz_plain; exact E|eapply br_gz_raise; [exact E|exact D]].
Qed.
Lemma one_total kind ign text : exists o, one_read gz kind ign text o.
Proof.
  destruct (line_case text) as [H|(l & rest & -> & Hl)]; [eexists; apply or_no_line, H|].
  destruct (blank_dec l) as [Hb|Hb]; [eexists; apply or_blank, Hb|].
  destruct (start_fields kind ign) as (_ & _ & _ & S4 & _ & S6).
  destruct (start_sound kind (start_hdr kind ign) l S6 Hl) as [[s Hs]|Hbad].
  2:{ eexists. apply or_bad_start; [exact Hl|exact Hb|]. intros s Hs. rewrite (start_complete kind (start_hdr kind ign) l s S6 S4 Hl Hs) in Hbad. discriminate. }
  destruct (lines_total _ [] rest (le_n _)) as [[[fields [body|]]|e|] Hr].
  - destruct (note_exact fields (set_headers (new_request_hdr ign) fields) eq_refl) as [(h' & _ & Hg)|[_ Hg]].
    + destruct (lines_suffix _ _ _ Hr _ _ eq_refl) as [h ->]. destruct (framed_total ign s fields Hg) as [fr Hf]. destruct (body_total fr body) as [o Ho].
      eexists. eapply or_body; eassumption.
    + eexists. eapply or_bad_length; eassumption.
  - eexists. eapply or_open; eassumption.
  - eexists. eapply or_bad_lines; eassumption.
  - destruct (lines_no_loop _ _ _ Hr eq_refl).
Qed.
Lemma continue_look m : is_continue (look m) <-> continue_done m.
Proof.
  unfold is_continue, continue_done, status, look. cbn [v_complete v_start]. split; intros [H1 H2]; (split; [exact H1|]).
  - destruct H2 as (rm & v & p & ->). reflexivity.
  - destruct (h_kind (m_head m)) as [|rm v c p]; [discriminate|]. injection H2 as ->. eauto.
Qed.
(** after a "100 Continue" everything read has been used *)
Lemma continue_flush m kind ign text v rest : fresh_at m kind ign -> one_read gz kind ign text (Ret (v, rest)) -> is_continue v ->
  exists m1, base_feed gz m text = Ret (m1, rest) /\ flush m1.
Proof.
  intros Hfr Ho Hc. pose proof Hfr as (F1 & F2 & F3 & F4 & F5). destruct (start_fields kind ign) as (S1 & S2 & S3 & S4 & S5 & S6).
  inversion Ho as [t Hl E|l r Hb E|l r Hl Hb Hs E|l r s fields Hl Hb Hs Hr E|l r s e Hl Hb Hs Hr E|l r s fields body Hl Hb Hs Hr Hbad E|l h body s fields fr o Hl Hb Hs Hr Hbad Hfd Hbr E E2].
  - subst v. destruct Hc as [Hc _]. discriminate.
  - subst v. destruct Hc as [Hc _]. discriminate.
  - subst v. destruct Hc as [Hc _]. discriminate.
  - subst text. destruct o as [res|e|]; try discriminate. injection E2 as Ev Er. subst v. destruct Hc as (_ & rm & ver & ph & Ek). cbn [with_body v_start] in Ek. subst s.
    assert (Hno : has_none (KResponse rm ver 100 ph)) by (right; left; lia).
    assert (fr = NoBody) by (destruct Hfd; try reflexivity; try contradiction). subst fr. inversion Hbr; subst res. subst rest. cbn [b_unread].
    rewrite BF_start by (try exact F1; try apply flush_bwf, F2; apply app_ne_lf). rewrite cut_lf by exact Hl. rewrite (flush_pending m F2). cbn [app]. cbv zeta. rewrite (not_blank l Hb).
    rewrite F5. rewrite (start_complete kind (start_hdr kind ign) l _ S6 S4 Hl Hs). cbn [bind].
    match goal with |- context [base_feed gz ?M (h ++ body)] => set (m1 := M) end.
    pose proof (BF_lines [] _ _ Hr m1 eq_refl) as Q. cbn beta iota in Q. destruct Q as (m' & x & _ & Qf & _ & ->); [reflexivity|exact S2|].
    destruct (note_exact fields (set_headers (m_head m1) fields)) as [(hd & Eh & _)|[_ X]]; [destruct kind; reflexivity| |exfalso; apply Hbad; destruct kind; exact X].
    assert (F : head_facts hd (KResponse rm ver 100 ph) ign fields) by (apply (note_facts (set_headers (m_head m1) fields)); [destruct kind; repeat split|exact Eh]).
    rewrite Eh. cbn [bind]. cbv zeta. unfold begin_body. cbn [m_head set_mode set_head]. rewrite (proj2 (has_body_iff _ _ _ _ F)) by auto. cbn [negb bind].
    eexists. split; [apply BF_done; left; reflexivity|exact Qf].
Qed.
Lemma fresh_after m m1 kind ign text t1 : fresh_at m kind ign -> base_feed gz m text = Ret (m1, t1) -> flush m1 -> continue_done m1 ->
  fresh_at (after_continue m1) kind [] /\ m_buf (after_continue m1) = m_buf m1 /\ m_interim (after_continue m1) = m_interim m1 ++ [m_head m1].
Proof.
  intros (F1 & F2 & F3 & F4 & F5) E Hf [_ C]. apply base_feed_cls in E. rewrite F5 in E. unfold after_continue, status, cls in *.
  destruct (h_kind (m_head m1)) as [|rm v c p]; [discriminate|]. split; [|auto]. repeat split; try exact Hf. destruct kind as [rm'|]; [|discriminate]. injection E as ->. reflexivity.
Qed.
Lemma reads_run m kind ign text o : fresh_at m kind ign -> m_buf m = [] -> m_interim m = [] -> reads gz kind ign text o -> seen (feed gz m text) = o.
Proof.
  intros Hf Hb Hi Ho. rewrite feed_resp.
  assert (Onto : forall o', one_read gz kind ign text o' -> seen (base_feed gz m text) = o').
  { intros o' H. rewrite (one_run m kind ign text o' Hf H). unfold onto. rewrite Hb, Hi. cbn [app map]. inversion H; try reflexivity.
    match goal with |- context [match ?x with Ret _ => _ | Raise _ => _ | Diverge => _ end] => destruct x; reflexivity end. }
  destruct Ho as [v rest H Hc|e H|H|v rest o H Hc H2].
  - apply Onto in H. destruct (base_feed gz m text) as [[m1 t1]| |]; try discriminate. injection H as <- <-. cbn [bind]. unfold resp. cbn [fst snd].
    destruct (continue_dec m1) as [C|C]; [apply continue_look in C; contradiction|reflexivity].
  - apply Onto in H. destruct (base_feed gz m text) as [[m1 t1]| |]; try discriminate. injection H as <-. reflexivity.
  - apply Onto in H. destruct (base_feed gz m text) as [[m1 t1]| |]; try discriminate. reflexivity.
  - destruct (continue_flush m kind ign text v rest Hf H Hc) as (m1 & E & Hf1). pose proof (one_run m kind ign text _ Hf H) as Hn. apply Onto in H. rewrite E in *. injection H as <-. cbn [bind]. unfold resp. cbn [fst snd].
    apply continue_look in Hc. destruct (continue_dec m1) as [_|C]; [|contradiction].
    destruct (fresh_after m m1 kind ign text rest Hf E Hf1 Hc) as (A1 & A2 & A3). rewrite (one_run _ kind [] rest o A1 H2). unfold onto, after. destruct o as [[v r]| |]; [|reflexivity..].
    rewrite A2, A3, map_app. cbn [look v_message v_start v_headers]. unfold get_message.
    replace (m_interim m1) with (@nil hdr); [reflexivity|]. symmetry.
    cbn [seen onto] in Hn. rewrite Hi in Hn. injection Hn as Hn. destruct (m_interim m1); [reflexivity|discriminate].
Qed.
Lemma reads_total kind ign text : exists o, reads gz kind ign text o.
Proof.
  destruct (one_total kind ign text) as [[[v rest]|e|] H]; [|eexists; apply rd_raise, H|eexists; apply rd_loop, H].
  assert (D : is_continue v \/ ~ is_continue v).
  { unfold is_continue. destruct (v_complete v); [|right; intros [X _]; discriminate]. destruct (v_start v) as [|rm a c p]; [right; intros (_ & x & y & z & X); discriminate|].
    destruct (Z.eq_dec c 100) as [->|N]; [left; eauto 6|right; intros (_ & x & y & z & X); congruence]. }
  destruct D as [D|D]; [|eexists; apply rd_message; [exact H|exact D]].
  destruct (one_total kind [] rest) as [o Ho]. eexists. eapply rd_continue; eassumption.
Qed.
End G.

(** C84: for every text, request or response, the outcome of the first feed() is the one
    that [reads] describes, and no other. *)
Theorem C84_any_bytes gz kind ign text o :
  reads gz kind ign text o <-> seen (feed gz (parser_for kind ign) text) = o.
Proof.
  assert (R : forall o', reads gz kind ign text o' -> seen (feed gz (parser_for kind ign) text) = o').
  { intros o' H. apply (reads_run gz (parser_for kind ign) kind ign text o' (parser_fresh kind ign) eq_refl eq_refl H). }
  split; [apply R|]. intros <-. destruct (reads_total gz kind ign text) as [o' H]. rewrite (R _ H). exact H.
Qed.
(** The description is complete and leaves no choice. *)
Theorem C84_one_reading gz kind ign text : exists o, reads gz kind ign text o /\ forall o', reads gz kind ign text o' -> o' = o.
Proof.
  exists (seen (feed gz (parser_for kind ign) text)). split; [apply C84_any_bytes; reflexivity|]. intros o' H. apply C84_any_bytes in H. congruence.
Qed.
(** A first feed() raises ValueError, IndexError or what decompressing some of the text
    raised. *)
Theorem C84_exceptions gz kind ign text e : feed gz (parser_for kind ign) text = Raise e ->
  e = EValueError \/ e = EIndexError \/ exists a b c, text = a ++ b ++ c /\ gz b = Raise e.
Proof.
  intro H. assert (R : reads gz kind ign text (Raise e)) by (apply C84_any_bytes; rewrite H; reflexivity). clear H.
  assert (L : forall acc t o, lines_read acc t o -> o = Raise e -> e = EValueError \/ e = EIndexError) by (induction 1; intro X; try discriminate; try (injection X as <-; auto); auto).
  assert (Ch : forall f t o, chunks_read f t o -> o = Raise e -> e = EValueError \/ e = EIndexError).
  { induction 1 as [| | |first l rest o Hl Hs Hr| | | | |first l d drop more o Hl Hd Hs Hm Hc IH]; intro X; try discriminate; try (injection X as <-; auto).
    - apply (L _ _ _ Hr). destruct o as [[t r]|e'|]; try discriminate. cbn [put_trailers] in X. congruence.
    - apply IH. destruct o as [[[[b t] r]|]|e'|]; try discriminate. cbn [put_data] in X. congruence. }
  assert (Bd : forall fr t, body_read gz fr t (Raise e) -> e = EValueError \/ e = EIndexError \/ exists a b c, t = a ++ b ++ c /\ gz b = Raise e).
  { intros fr t Hb. inversion Hb; subst.
    - right. right. match goal with G : gz (slice t 0 ?n) = _ |- _ => exists [], (slice t 0 n), (skipn (List.length (slice t 0 n)) t); split; [|exact G] end.
      cbn [app]. unfold slice. rewrite skipn_O. cbv zeta. match goal with |- context [firstn ?K t] => generalize K; intro k end.
      rewrite firstn_length. destruct (Nat.le_gt_cases k (List.length t)) as [K|K].
      + rewrite Nat.min_l by exact K. symmetry. apply firstn_skipn.
      + rewrite Nat.min_r by lia. rewrite firstn_all2 by lia. rewrite skipn_all. symmetry. apply app_nil_r.
    - match goal with G : chunks_read _ _ _ |- _ => destruct (Ch _ _ _ G eq_refl); auto end. }
  assert (O : forall k i t, one_read gz k i t (Raise e) -> e = EValueError \/ e = EIndexError \/ exists a b c, t = a ++ b ++ c /\ gz b = Raise e).
  { intros k i t Ho. inversion Ho as [| |l r Hl Hb Hs E|l r s fields Hl Hb Hs Hr E|l r s e' Hl Hb Hs Hr E|l r s fields body Hl Hb Hs Hr Hbad E|l h body s fields fr o Hl Hb Hs Hr Hbad Hfd Hbr E E2]; subst.
    - auto.
    - destruct (L _ _ _ Hr eq_refl); auto.
    - auto.
    - destruct o as [res|e'|]; try discriminate. injection E2 as ->. destruct (Bd _ _ Hbr) as [X|[X|(a & b & c & -> & X)]]; auto. right. right.
      exists (l ++ [LF] ++ h ++ a), b, c. split; [rewrite <- !app_assoc; reflexivity|exact X]. }
  inversion R as [|e' H1| |v rest o H1 Hc H2 E]; subst; [exact (O _ _ _ H1)|].
  destruct o as [[v' r]|e'|]; try discriminate. injection E as ->. destruct (O _ _ _ H2) as [X|[X|(a & b & c & -> & X)]]; auto. right. right.
  assert (S : exists x, text = x ++ a ++ b ++ c).
  { inversion H1 as [t Hl E|l r Hb E|l r Hl Hb Hs E|l r s fields Hl Hb Hs Hr E|l r s e'' Hl Hb Hs Hr E|l r s fields body Hl Hb Hs Hr Hbad E|l h body s fields fr o Hl Hb Hs Hr Hbad Hfd Hbr E E2]; subst.
    - destruct Hc as [Hc _]. discriminate.
    - destruct Hc as [Hc _]. discriminate.
    - destruct Hc as [Hc _]. discriminate.
    - destruct o as [res|e'|]; try discriminate. injection E2 as E3 E4. subst v. destruct Hc as (_ & rm & ver & ph & Ek). cbn [with_body v_start] in Ek. subst s.
      assert (Hno : has_none (KResponse rm ver 100 ph)) by (right; left; lia).
      assert (fr = NoBody) by (destruct Hfd; try reflexivity; try contradiction). subst fr. inversion Hbr; subst res. cbn [b_unread] in E4. rewrite E4. exists (l ++ [LF] ++ h). rewrite <- !app_assoc. reflexivity. }
  destruct S as [x ->]. exists (x ++ a), b, c. split; [rewrite <- app_assoc; reflexivity|exact X].
Qed.

(** ** Concrete cases *)
Definition not_gzip (b : bytes) : outcome bytes := Raise EOSError.
(** a chunked response with an extension, an ill-formed chunk end, trailers and a folded
    field, after a "100 Continue"; the next message is left over *)
Definition any_text : bytes :=
  B "HTTP/1.1 100 Continue" ++ CRLF ++ CRLF ++
  B "HTTP/1.0  007 odd one " ++ [LF] ++ B "A : b" ++ CRLF ++ [TAB] ++ B " more " ++ [LF] ++ B "TRANSFER-encoding:  Chunked,x" ++ CRLF ++ CRLF.
Example C84_bad_status_line : reads not_gzip (Some (B "GET")) [] any_text (Raise EValueError).
Proof. apply C84_any_bytes. vm_compute. reflexivity. Qed.
Definition odd_text : bytes :=
  B "HTTP/1.1 100 Continue" ++ CRLF ++ CRLF ++
  B "HTTP/1.0 +2_07 odd one " ++ [LF] ++ B "A : b" ++ CRLF ++ [TAB] ++ B " more " ++ [LF] ++ B "TRANSFER-encoding:  Chunked,x" ++ CRLF ++ CRLF ++
  B "0x3;x=y" ++ CRLF ++ B "abcdropped" ++ CRLF ++ B " 1 " ++ [LF] ++ B "d" ++ CRLF ++ B "000" ++ [LF] ++ B "T: u" ++ CRLF ++ CRLF ++ B "NEXT".
Example C84_odd_response : exists v, reads not_gzip (Some (B "GET")) [] odd_text (Ret (v, B "NEXT")) /\
  v_complete v = true /\ v_start v = KResponse (B "GET") (B "HTTP/1.0") 207 (Some (B "odd one")) /\
  v_headers v = [(B "A", B "b more"); (B "TRANSFER-encoding", B "Chunked,x")] /\ v_trailers v = [(B "T", B "u")] /\ v_body v = B "abcd" /\
  v_interim v = [(KResponse (B "GET") (B "HTTP/1.1") 100 (Some (B "Continue")), [])] /\ v_message v ++ B "NEXT" = odd_text.
Proof. eexists. split; [apply C84_any_bytes; vm_compute; reflexivity|]. vm_compute. repeat split. Qed.
Example C84_proxy_request : exists v, reads not_gzip None [] (B "GET HTTPS://example.org:80?q HTTP/1.1" ++ CRLF ++ B "Content-Length: 2" ++ CRLF ++ CRLF ++ B "ab ") (Ret (v, B " ")) /\
  v_complete v = true /\ v_start v = KRequest (B "GET") (B "?q") (B "HTTP/1.1") false /\ v_body v = B "ab".
Proof. eexists. split; [apply C84_any_bytes; vm_compute; reflexivity|]. vm_compute. repeat split. Qed.
