(** What follows a complete message does not matter to it. *)
From Verif Require Import RegexFacts.
From Verif Require Export PropsHttp PropsHttpAny.
From Coq Require Import String List Lia ZArith.
Open Scope list_scope.

Lemma lines_ext acc text o : lines_read acc text o -> forall t rest, o = Ret (t, Some rest) -> forall more, lines_read acc (text ++ more) (Ret (t, Some (rest ++ more))).
Proof.
  induction 1 as [acc text Hl|acc l rest Hb|acc k v l rest o Hl Hs H IH|l rest Hl Hs|acc n v rest o Hn Hv Hc Hs H IH|acc l rest Hl Hb Hs Hc]; intros t r E more; try discriminate.
  - injection E as <- <-. replace ((l ++ [LF] ++ rest) ++ more) with (l ++ [LF] ++ (rest ++ more)) by (rewrite <- !app_assoc; reflexivity). apply lr_blank, Hb.
  - replace ((l ++ [LF] ++ rest) ++ more) with (l ++ [LF] ++ (rest ++ more)) by (rewrite <- !app_assoc; reflexivity). apply lr_fold; auto.
  - replace (((n ++ [COLON] ++ v) ++ [LF] ++ rest) ++ more) with ((n ++ [COLON] ++ v) ++ [LF] ++ (rest ++ more)) by (rewrite <- !app_assoc; reflexivity). apply lr_field; auto.
Qed.
Lemma chunks_ext first text o : chunks_read first text o -> forall d t rest, o = Ret (Some (d, t, Some rest)) ->
  forall more, chunks_read first (text ++ more) (Ret (Some (d, t, Some (rest ++ more)))).
Proof.
  induction 1 as [first text Hl|l rest Hl Hs|l rest Hl Hs|first l rest o Hl Hs Hr|first l n rest Hl Hs Hn Hr|first l n Hl Hs Hn|first l n d Hl Hs Hn|first l d more Hl Hd Hs Hm|first l d drop more o Hl Hd Hs Hm Hc IH]; intros d' t' r E x; try discriminate.
  - destruct o as [[t [r'|]]|e|]; try discriminate. cbn [put_trailers] in E. injection E as <- <- <-.
    replace ((l ++ [LF] ++ rest) ++ x) with (l ++ [LF] ++ (rest ++ x)) by (rewrite <- !app_assoc; reflexivity).
    change (Ret (Some ([], t, Some (r' ++ x)))) with (put_trailers (Ret (t, Some (r' ++ x)))). apply cr_last; [exact Hl|exact Hs|]. exact (lines_ext _ _ _ Hr _ _ eq_refl x).
  - destruct o as [[[[b t] [r'|]]|]|e|]; try discriminate. cbn [put_data] in E. injection E as <- <- <-.
    replace ((l ++ [LF] ++ d ++ drop ++ [LF] ++ more) ++ x) with (l ++ [LF] ++ d ++ drop ++ [LF] ++ (more ++ x)) by (rewrite <- !app_assoc; reflexivity).
    change (Ret (Some (d ++ b, t, Some (r' ++ x)))) with (put_data d (Ret (Some (b, t, Some (r' ++ x))))). apply cr_data; auto.
Qed.

Section G.
Variable gz : bytes -> outcome bytes.
Lemma body_ext fr text r : body_read gz fr text (Ret r) -> b_complete r = true -> (forall n, fr <> Zipped n) -> forall more,
  body_read gz fr (text ++ more) (Ret (mkres true (b_body r) (b_trailers r) (b_taken r) (b_unread r ++ more))).
Proof.
  intros H C Z more. inversion H; subst; cbn [b_complete b_body b_trailers b_taken b_unread] in *; try discriminate; try (exfalso; eapply Z; reflexivity).
  - apply br_none.
  - rewrite <- app_assoc. apply br_full.
  - apply br_negative; [assumption|]. destruct text; [contradiction|discriminate].
  - rewrite <- app_assoc. apply br_chunks_done. rewrite app_assoc. eapply chunks_ext; [eassumption|reflexivity].
Qed.
(** the fields announce a gzip body with a length *)
Definition gzip_says (ign : list bytes) (l : pairs) : Prop :=
  says_chunked (ignored ign) l = false /\ length_value (ignored ign) l <> None /\ gzip_coded ign l = true.
Lemma zipped_says ign s l n : framed ign s l (Zipped n) -> gzip_says ign l.
Proof.
  intro H. inversion H as [Hn E|Hn Hch E|v k Hn Hch Hl Hv E|a b c d Hs Hch Hl E|a b c d Hs Hn Hch Hl E].
  destruct (gzip_coded ign l) eqn:G; [|discriminate]. split; [exact Hch|]. split; [rewrite Hl; discriminate|exact G].
Qed.
Lemma head_gzip hd s ign l : head_facts hd s ign l -> (gzip_with_length hd <-> gzip_says ign l).
Proof.
  intro F. unfold gzip_with_length, gzip_says. rewrite (mode_of _ _ _ _ F), (hf_coding _ _ _ _ F). unfold gzip_coded.
  destruct (says_chunked (ignored ign) l); [split; [intros [X _]; discriminate|intros [X _]; discriminate]|].
  destruct (length_value (ignored ign) l) as [v|]; [|split; [intros [X _]; discriminate|intros (_ & X & _); contradiction]].
  destruct (coding (ignored ign) l) as [e|]; split.
  - intros (_ & x & E & G). injection E as <-. repeat split; [discriminate|exact G].
  - intros (_ & _ & G). split; [reflexivity|]. exists e. auto.
  - intros (_ & x & E & _). discriminate.
  - intros (_ & _ & G). discriminate.
Qed.
Lemma one_ext kind ign text v rest : one_read gz kind ign text (Ret (v, rest)) -> v_complete v = true -> has_none (v_start v) \/ ~ gzip_says ign (v_headers v) ->
  forall more, one_read gz kind ign (text ++ more) (Ret (v, rest ++ more)).
Proof.
  intros H C Z more.
  inversion H as [t Hl E|l r Hb E|l r Hl Hb Hs E|l r s fields Hl Hb Hs Hr E|l r s e Hl Hb Hs Hr E|l r s fields body Hl Hb Hs Hr Hbad E|l h body s fields fr o Hl Hb Hs Hr Hbad Hfd Hbr E E2];
    try (subst v; discriminate).
  destruct o as [res|e|]; try discriminate. injection E2 as Ev Er. subst v rest. cbn [with_body v_complete v_start v_headers] in *.
  assert (Zf : forall n, fr <> Zipped n).
  { intros n ->. destruct Z as [Z|Z]; [|exact (Z (zipped_says _ _ _ _ Hfd))]. inversion Hfd; try contradiction. }
  pose proof (body_ext _ _ _ Hbr C Zf more) as B.
  replace ((l ++ [LF] ++ h ++ body) ++ more) with (l ++ [LF] ++ h ++ (body ++ more)) by (rewrite <- !app_assoc; reflexivity).
  assert (R : lines_read [] (h ++ (body ++ more)) (Ret (fields, Some (body ++ more)))) by (rewrite app_assoc; exact (lines_ext _ _ _ Hr _ _ eq_refl more)).
  pose proof (or_body gz kind ign l h (body ++ more) s fields fr _ Hl Hb Hs R Hbad Hfd B) as O. cbn [b_unread] in O.
  unfold with_body in O. cbn [b_complete b_trailers b_body b_taken] in O. unfold with_body. rewrite C. exact O.
Qed.
Lemma one_gzip m kind ign text v rest : fresh_at m kind ign -> one_read gz kind ign text (Ret (v, rest)) -> v_headers_complete v = true ->
  exists m1, base_feed gz m text = Ret (m1, rest) /\ (gzip_with_length (m_head m1) <-> gzip_says ign (v_headers v)).
Proof.
  intros Hfr Ho Hc. pose proof Hfr as (F1 & F2 & F3 & F4 & F5). destruct (start_fields kind ign) as (S1 & S2 & S3 & S4 & S5 & S6).
  inversion Ho as [t Hl E|l r Hb E|l r Hl Hb Hs E|l r s fields Hl Hb Hs Hr E|l r s e Hl Hb Hs Hr E|l r s fields body Hl Hb Hs Hr Hbad E|l h body s fields fr o Hl Hb Hs Hr Hbad Hfd Hbr E E2];
    try (subst v; discriminate).
  subst text. destruct o as [res|e|]; try discriminate. injection E2 as Ev Er. subst v rest. cbn [with_body v_headers].
  rewrite BF_start by (try exact F1; try apply flush_bwf, F2; apply app_ne_lf). rewrite cut_lf by exact Hl. rewrite (flush_pending m F2). cbn [app]. cbv zeta. rewrite (not_blank l Hb).
  rewrite F5. rewrite (start_complete kind (start_hdr kind ign) l _ S6 S4 Hl Hs). cbn [bind].
  match goal with |- context [base_feed gz ?M (h ++ body)] => set (m1 := M) end.
  pose proof (BF_lines gz [] _ _ Hr m1 eq_refl) as Q. cbn beta iota in Q. destruct Q as (m' & x & _ & Qf & Q2 & ->); [reflexivity|exact S2|].
  destruct (note_exact fields (set_headers (m_head m1) fields)) as [(hd & Eh & _)|[_ X]]; [destruct kind; reflexivity| |exfalso; apply Hbad; destruct kind; exact X].
  assert (F : head_facts hd s ign fields) by (apply (note_facts (set_headers (m_head m1) fields)); [destruct kind; repeat split|exact Eh]).
  rewrite Eh. cbn [bind]. cbv zeta. destruct Q2 as (_ & E2 & E3 & _).
  pose proof (body_run gz (set_mode (set_head m' hd) Body) s ign fields fr body _ eq_refl Qf (eq_trans E2 F3) (eq_trans E3 F4) F Hfd Hbr) as R.
  cbn [body_shown] in R. destruct R as (m2 & -> & _ & _ & _ & (R5 & _)). exists m2. split; [reflexivity|]. rewrite R5. exact (head_gzip _ _ _ _ F).
Qed.
End G.

Lemma ret_fst {A B : Type} (v w : A) (r s : B) : Ret (v, r) = Ret (w, s) -> v = w. Proof. congruence. Qed.
Section P.
Variable gz : bytes -> outcome bytes.
Lemma fresh_parser kind ign : fresh_at (parser_for kind ign) kind ign /\ m_buf (parser_for kind ign) = [] /\ m_interim (parser_for kind ign) = [].
Proof. split; [apply parser_fresh|]. destruct kind; split; reflexivity. Qed.
Lemma continue_no_body v : is_continue v -> has_none (v_start v).
Proof. intros (_ & rm & ver & ph & ->). right. left. lia. Qed.
(** the fields that decide are those of the last header: after a "100 Continue" none is ignored *)
Definition still_ignored (ign : list bytes) (m : msg) : list bytes := match m_interim m with [] => ign | _ => [] end.
Lemma feed_gzip kind ign text m rest : feed gz (parser_for kind ign) text = Ret (m, rest) -> headers_complete m = true ->
  (gzip_with_length (m_head m) <-> gzip_says (still_ignored ign m) (h_headers (m_head m))).
Proof.
  intros E Hc. destruct (fresh_parser kind ign) as (Hf & Hb & Hi). destruct (reads_total gz kind ign text) as [o R].
  pose proof (reads_run gz _ kind ign text o Hf Hb Hi R) as S. rewrite E in S. cbn [seen] in S. rewrite feed_resp in E.
  destruct R as [v r H Hn|e H|H|v0 r0 o H Hn H2]; try discriminate.
  - pose proof (ret_fst _ _ _ _ S) as Sv. assert (Sr : rest = r) by congruence. clear S. subst v r. destruct (one_gzip gz _ kind ign text _ _ Hf H Hc) as (m1 & E1 & G). rewrite E1 in E. cbn [bind] in E. unfold resp in E. cbn [fst snd] in E.
    assert (K1 : ~ continue_done m1).
    { intro K. apply continue_look in K. pose proof (one_run gz _ kind ign text _ Hf H) as On. rewrite E1 in On. cbn [seen onto] in On. apply ret_fst in On. apply Hn.
      destruct K as (K1 & K2). unfold look in K1, K2. cbn [v_complete v_start] in K1, K2. pose proof (f_equal v_complete On) as O1; pose proof (f_equal v_start On) as O3; cbn [look v_complete v_start] in O1, O3. split; [exact (eq_trans (eq_sym O1) K1)|].
      destruct K2 as (x & y & z & K2). exists x, y, z. exact (eq_trans (eq_sym O3) K2). }
    destruct (continue_dec m1) as [C|_]; [contradiction|]. injection E as <-. unfold still_ignored.
    pose proof (one_run gz _ kind ign text _ Hf H) as On. rewrite E1 in On. cbn [seen onto] in On. apply ret_fst in On. apply (f_equal v_interim) in On. cbn [look v_interim] in On. rewrite Hi in On.
    destruct (m_interim m1); [|discriminate]. exact G.
  - destruct o as [[v r]|e|]; try discriminate. cbn [after] in S. pose proof (ret_fst _ _ _ _ S) as Sv. assert (Sr : r = rest) by congruence. clear S. subst r.
    destruct (continue_flush gz _ kind ign text v0 r0 Hf H Hn) as (m1 & E1 & Hf1). rewrite E1 in E. cbn [bind] in E. unfold resp in E. cbn [fst snd] in E.
    pose proof (one_run gz _ kind ign text _ Hf H) as On. rewrite E1 in On. cbn [seen onto] in On. apply ret_fst in On.
    assert (K1 : continue_done m1).
    { apply continue_look. destruct Hn as (K1 & x & y & z & K2). pose proof (f_equal v_complete On) as O1; pose proof (f_equal v_start On) as O3; cbn [look v_complete v_start] in O1, O3. split; [exact (eq_trans O1 K1)|]. exists x, y, z. exact (eq_trans O3 K2). }
    destruct (continue_dec m1) as [_|C]; [|contradiction]. destruct (fresh_after gz _ m1 kind ign text r0 Hf E1 Hf1 K1) as (A1 & A2 & A3).
    assert (Hvc : v_headers_complete v = true) by (apply (f_equal v_headers_complete) in Sv; cbn [look v_headers_complete] in Sv; congruence).
    destruct (one_gzip gz _ kind [] r0 v rest A1 H2 Hvc) as (m2 & E2 & G). rewrite E2 in E. injection E as <-.
    assert (Hh : h_headers (m_head m2) = v_headers v) by (apply (f_equal v_headers) in Sv; exact Sv).
    rewrite Hh. unfold still_ignored. apply (f_equal v_interim) in Sv. cbn [look v_interim] in Sv. destruct (m_interim m2); [discriminate|exact G].
Qed.
Theorem feed_more : gz_ok gz -> forall kind ign text m, feed gz (parser_for kind ign) text = Ret (m, []) -> complete m = true -> orderly (Ret (m, @nil N)) ->
  forall more, feed gz (parser_for kind ign) (text ++ more) = Ret (m, more).
Proof.
  intros Hgz kind ign text m E C Ho more. destruct (fresh_parser kind ign) as (Hf & Hb & Hi).
  assert (Hc : headers_complete m = true) by (unfold complete, headers_complete in *; destruct (m_mode m); try discriminate; reflexivity).
  pose proof (feed_gzip kind ign text m [] E Hc) as Gz. pose proof Ho as (_ & Ng & _ & Nc).
  assert (R : reads gz kind ign (text ++ more) (Ret (look m, more))).
  { destruct (reads_total gz kind ign text) as [o R]. pose proof (reads_run gz _ kind ign text o Hf Hb Hi R) as S. rewrite E in S. cbn [seen] in S.
    destruct R as [v r H Hn|e H|H|v0 r0 o H Hn H2]; try discriminate.
    - pose proof (ret_fst _ _ _ _ S) as Sv. assert (Sr : [] = r) by congruence. clear S. subst v r. apply rd_message; [|exact Hn]. apply (one_ext gz kind ign text _ _ H C). right. rewrite Gz in Ng.
      assert (X : m_interim m = []).
      { pose proof (one_run gz _ kind ign text _ Hf H) as On. cbn [onto] in On. destruct (base_feed gz (parser_for kind ign) text) as [[m1 r1]| |]; try discriminate. cbn [seen] in On. apply ret_fst in On.
        apply (f_equal v_interim) in On. rewrite Hi in On.
        assert (Ho2 : forall u w, one_read gz kind ign u (Ret w) -> v_interim (fst w) = []).
        { intros u w X. inversion X; subst; try reflexivity. match goal with K : match ?q with Ret _ => _ | Raise _ => _ | Diverge => _ end = _ |- _ => destruct q; try discriminate; injection K as <- end. reflexivity. }
        apply Ho2 in H. cbn [fst look v_interim] in H. destruct (m_interim m); [reflexivity|discriminate]. }
      unfold still_ignored in Ng. rewrite X in Ng. exact Ng.
    - destruct o as [[v r]|e|]; try discriminate. cbn [after] in S. pose proof (ret_fst _ _ _ _ S) as Sv. assert (Sr : r = []) by congruence. clear S. subst r. rewrite Sv.
      change more with ([] ++ more) at 2. pose proof (f_equal v_complete Sv) as Vc. pose proof (f_equal v_headers Sv) as Vh. pose proof (f_equal v_interim Sv) as Vi. cbn [look v_complete v_headers v_interim] in Vc, Vh, Vi.
      assert (Z : ~ gzip_says [] (v_headers v)).
      { rewrite <- Vh. rewrite Gz in Ng. unfold still_ignored in Ng. destruct (m_interim m); [discriminate|exact Ng]. }
      pose proof (one_ext gz kind [] r0 v [] H2 (eq_trans (eq_sym Vc) C) (or_intror Z) more) as X2.
      pose proof (one_ext gz kind ign text v0 r0 H (proj1 Hn) (or_introl (continue_no_body _ Hn)) more) as X1.
      exact (rd_continue gz kind ign (text ++ more) v0 (r0 ++ more) _ X1 Hn X2). }
  pose proof (reads_run gz _ kind ign _ _ Hf Hb Hi R) as S. destruct (feed gz (parser_for kind ign) (text ++ more)) as [[m' r']| |] eqn:E'; try discriminate. cbn [seen] in S.
  pose proof (ret_fst _ _ _ _ S) as Sl. assert (Sr : r' = more) by congruence. clear S. subst r'.
  assert (C' : complete m' = true) by (apply (f_equal v_complete) in Sl; cbn [look v_complete] in Sl; congruence).
  assert (Hc' : headers_complete m' = true) by (unfold complete, headers_complete in *; destruct (m_mode m'); try discriminate; reflexivity).
  assert (O' : orderly (Ret (m', more))).
  { split; [intro X; unfold complete in C'; rewrite X in C'; discriminate|]. split; [|split].
    - intro G. apply (feed_gzip kind ign _ _ _ E' Hc') in G. apply Ng, Gz.
      assert (A1 : h_headers (m_head m') = h_headers (m_head m)) by exact (f_equal v_headers Sl). rewrite A1 in G.
      apply (f_equal v_interim) in Sl. cbn [look v_interim] in Sl. unfold still_ignored in *. destruct (m_interim m'), (m_interim m); try discriminate; exact G.
    - intros (X & _). unfold complete in C'. rewrite X in C'. discriminate.
    - intros (_ & X). apply Nc. split; [exact C|]. unfold status in *. assert (A : h_kind (m_head m') = h_kind (m_head m)) by exact (f_equal v_start Sl). rewrite <- A. exact X. }
  pose proof (C32_new_parser gz Hgz kind ign [text; more]) as P. cbn [concat] in P. rewrite app_nil_r in P. rewrite E' in P. specialize (P O'). cbn [feed_all] in P. rewrite E in P. cbn [bind fst snd] in P.
  assert (D : feed gz m more = Ret (m, more)).
  { rewrite feed_resp. rewrite BF_done by (left; unfold complete in C; destruct (m_mode m); try discriminate; reflexivity). cbn [bind]. unfold resp. cbn [fst snd]. destruct (continue_dec m) as [K|K]; [|reflexivity]. exfalso. exact (Nc K). }
  rewrite D in P. cbn [bind fst snd] in P. destruct more as [|c more]; [exact (eq_sym P)|]. rewrite app_nil_r in P. exact (eq_sym P).
Qed.
End P.
