(** C87: several messages on a connection *)
From Verif Require Export HttpPipe PropsHttpRaise ConnFacts.
From Coq Require Import String List Lia ZArith.
Open Scope list_scope.

(** ** Messages one behind the other *)
Section G.
Variable gz : bytes -> outcome bytes.
(** the n-th message is parsed by the n-th new parser: a request parser, or a response
    parser for the method of the n-th request *)
Variable conf : nat -> option bytes * list bytes.
Definition parser (n : nat) : msg := parser_for (fst (conf n)) (snd (conf n)).
(** The loop of a caller that has received [text]:
      while text:
        text = m.feed(text)
        if m.complete():
          done.append(m); m = the next new parser
    from [done] and [m] to [done'] and [m']. *)
Inductive drives : list msg -> msg -> bytes -> list msg -> msg -> Prop :=
| dr_end done m : drives done m [] done m
| dr_next done m text m1 rest done' m' : text <> [] -> feed gz m text = Ret (m1, rest) -> complete m1 = true ->
    drives (done ++ [m1]) (parser (S (List.length done))) rest done' m' -> drives done m text done' m'
| dr_more done m text m1 rest done' m' : text <> [] -> feed gz m text = Ret (m1, rest) -> complete m1 = false ->
    drives done m1 rest done' m' -> drives done m text done' m'.
(** piece by piece, as received *)
Inductive receives : list msg -> msg -> list bytes -> list msg -> msg -> Prop :=
| rc_end done m : receives done m [] done m
| rc_piece done m p ps done1 m1 done' m' : drives done m p done1 m1 -> receives done1 m1 ps done' m' -> receives done m (p :: ps) done' m'.

Lemma drives_one done m text d1 m1 : drives done m text d1 m1 -> forall d2 m2, drives done m text d2 m2 -> d2 = d1 /\ m2 = m1.
Proof.
  induction 1 as [done m|done m text m1 rest done' m' Ht E C H IH|done m text m1 rest done' m' Ht E C H IH]; intros d2 m2 H2; inversion H2; subst; try contradiction; auto;
    match goal with X : feed gz m text = Ret (?a, ?b), Y : feed gz m text = Ret (?c, ?d) |- _ => rewrite X in Y; injection Y as -> -> end; try congruence; apply IH; assumption.
Qed.
Lemma receives_one done m ps d1 m1 : receives done m ps d1 m1 -> forall d2 m2, receives done m ps d2 m2 -> d2 = d1 /\ m2 = m1.
Proof.
  induction 1 as [done m|done m p ps done1 m1 done' m' H H2 IH]; intros d2 m2 K; inversion K; subst; auto.
  match goal with X : drives done m p ?a ?b |- _ => destruct (drives_one _ _ _ _ _ H _ _ X) as [-> ->] end. apply IH. assumption.
Qed.

(** [text] is one whole message for the n-th parser, and makes [m] of it *)
Definition whole (n : nat) (text : bytes) (m : msg) : Prop :=
  feed gz (parser n) text = Ret (m, []) /\ complete m = true /\ orderly (Ret (m, @nil N)).
(** [text] is the beginning of a message (or nothing at all) *)
Definition begun (n : nat) (text : bytes) (m : msg) : Prop :=
  feed gz (parser n) text = Ret (m, []) /\ complete m = false /\ orderly (Ret (m, @nil N)).
Inductive messages : nat -> list bytes -> list msg -> Prop :=
| ms_nil n : messages n [] []
| ms_cons n text m texts ms : whole n text m -> messages (S n) texts ms -> messages n (text :: texts) (m :: ms).

Hypothesis Hgz : gz_ok gz.
(** the parser [m] still has to get [r] to become [m'] *)
Definition waits (m : msg) (r : bytes) (m' : msg) : Prop :=
  reached gz m /\ complete m = false /\ r <> [] /\ complete m' = true /\ orderly (Ret (m', @nil N)) /\ forall more, feed gz m (r ++ more) = Ret (m', more).
Definition last (m : msg) (r : bytes) (m' : msg) : Prop :=
  reached gz m /\ complete m = false /\ complete m' = false /\ orderly (Ret (m', @nil N)) /\ feed gz m r = Ret (m', []).
Lemma orderly_more m r r' : complete m = true -> orderly (Ret (m, r)) -> orderly (Ret (m, r')).
Proof. intros C (_ & A & B & D). split; [intro X; unfold complete in C; rewrite X in C; discriminate|auto]. Qed.
Lemma parser_incomplete n : complete (parser n) = false.
Proof. unfold parser, parser_for. destruct (fst (conf n)); reflexivity. Qed.
Lemma whole_waits n text m : whole n text m -> waits (parser n) text m.
Proof.
  intros (E & C & O). split; [apply reached_fresh|]. split; [apply parser_incomplete|]. split; [|split; [exact C|split; [exact O|]]].
  - intros ->. pose proof (parser_incomplete n) as X. rewrite feed_resp, BF_nil in E. cbn [bind] in E. unfold resp in E. cbn [fst snd] in E.
    destruct (continue_dec (parser n)) as [[K _]|K]; [congruence|]. injection E as <-. congruence.
  - apply (feed_more gz Hgz). all: assumption.
Qed.
Lemma feed_reached m text m' r : reached gz m -> feed gz m text = Ret (m', r) -> reached gz m'.
Proof. intros R E. eapply reached_session; [exact R|]. eapply session_call; [exact E|constructor]. Qed.
Lemma not_continue m : complete m = false -> ~ (complete m = true /\ status m = Some 100%Z).
Proof. intros C [X _]. congruence. Qed.
Lemma waits_part m p r m' : waits m (p ++ r) m' -> r <> [] -> exists m1, feed gz m p = Ret (m1, []) /\ complete m1 = false /\ waits m1 r m'.
Proof.
  intros (R & C & Hr & C' & O & L) Hn.
  assert (E0 : feed gz m (p ++ r) = Ret (m', [])) by (rewrite <- (app_nil_r (p ++ r)); apply L).
  destruct (C32_no_early_end gz Hgz m p r m' [] R E0 O) as (m1 & E1 & C1); [destruct r; [contradiction|cbn; lia]|].
  exists m1. split; [exact E1|]. split; [exact C1|]. split; [eapply feed_reached; eassumption|]. split; [exact C1|]. split; [exact Hn|]. split; [exact C'|]. split; [exact O|].
  intro more. pose proof (C32_split_does_not_matter gz Hgz m [p; r ++ more] R (not_continue m C)) as S. cbn [concat] in S. rewrite app_nil_r, app_assoc, L in S.
  specialize (S (orderly_more _ _ _ C' O)). cbn [feed_all] in S. rewrite E1 in S. cbn [bind fst snd] in S.
  destruct (feed gz m1 (r ++ more)) as [[q s]| |]; try discriminate. cbn [bind fst snd] in S. destruct s; [exact S|]. rewrite app_nil_r in S. exact S.
Qed.
Lemma last_part m p r m' : last m (p ++ r) m' -> exists m1, feed gz m p = Ret (m1, []) /\ complete m1 = false /\ last m1 r m'.
Proof.
  intros (R & C & C' & O & E). destruct r as [|c r].
  - rewrite app_nil_r in E. exists m'. split; [exact E|]. split; [exact C'|]. split; [eapply feed_reached; eassumption|]. split; [exact C'|]. split; [exact C'|]. split; [exact O|].
    rewrite feed_resp, BF_nil. cbn [bind]. unfold resp. cbn [fst snd]. destruct (continue_dec m') as [[K _]|K]; [congruence|reflexivity].
  - destruct (C32_no_early_end gz Hgz m p (c :: r) m' [] R E O) as (m1 & E1 & C1); [cbn; lia|].
    exists m1. split; [exact E1|]. split; [exact C1|]. split; [eapply feed_reached; eassumption|]. split; [exact C1|]. split; [exact C'|]. split; [exact O|].
    pose proof (C32_split_does_not_matter gz Hgz m [p; c :: r] R (not_continue m C)) as S. cbn [concat] in S. rewrite app_nil_r, E in S. specialize (S O).
    cbn [feed_all] in S. rewrite E1 in S. cbn [bind fst snd] in S. destruct (feed gz m1 (c :: r)) as [[q s]| |]; try discriminate. cbn [bind fst snd] in S. destruct s; [exact S|discriminate].
Qed.
(** what is still to come: the rest of the current message, whole messages, the beginning of one *)
Inductive due : nat -> msg -> bytes -> list msg -> msg -> Prop :=
| du_last n m r m' : last m r m' -> due n m r [] m'
| du_whole n m r m1 f ms m' : waits m r m1 -> due (S n) (parser (S n)) f ms m' -> due n m (r ++ f) (m1 :: ms) m'.
Lemma due_incomplete n m f ms m' : due n m f ms m' -> complete m = false.
Proof. intros [? ? ? ? (_ & C & _)|? ? ? ? ? ? ? (_ & C & _) _]; exact C. Qed.
Lemma take_piece n m f ms m' : due n m f ms m' -> forall p q done, f = p ++ q -> List.length done = n ->
  exists got m1 left_, drives done m p (done ++ got) m1 /\ ms = got ++ left_ /\ due (n + List.length got) m1 q left_ m'.
Proof.
  induction 1 as [n m r m' H|n m r m1 f ms m' H H2 IH]; intros p q done Ef Hd.
  - subst r. destruct (last_part _ _ _ _ H) as (m1 & E & C & L). exists [], m1, []. rewrite app_nil_r. split; [|split; [reflexivity|]].
    + destruct p as [|c p].
      * pose proof H as (_ & C0 & _). rewrite feed_resp, BF_nil in E. cbn [bind] in E. unfold resp in E. cbn [fst snd] in E.
        destruct (continue_dec m) as [[K _]|K]; [congruence|]. injection E as <-. constructor.
      * eapply dr_more; [discriminate|exact E|exact C|constructor].
    + cbn [List.length]. rewrite Nat.add_0_r. constructor. exact L.
  - destruct (Nat.le_gt_cases (List.length r) (List.length p)) as [Hl|Hl].
    + assert (Ep : exists p', p = r ++ p' /\ f = p' ++ q).
      { exists (skipn (List.length r) p). assert (A : firstn (List.length r) p = r).
        { apply (f_equal (firstn (List.length r))) in Ef. rewrite !firstn_app, Nat.sub_diag, firstn_all in Ef. cbn [firstn] in Ef. rewrite app_nil_r in Ef.
          replace (List.length r - List.length p) with 0 in Ef by lia. cbn [firstn] in Ef. rewrite app_nil_r in Ef. symmetry. exact Ef. }
        assert (B : p = r ++ skipn (List.length r) p) by (rewrite <- A at 1; symmetry; apply firstn_skipn). split; [exact B|].
        rewrite B in Ef. rewrite <- app_assoc in Ef. apply app_inv_head in Ef. exact Ef. }
      destruct Ep as (p' & -> & Ef'). destruct (IH p' q (done ++ [m1]) Ef') as (got & m2 & left_ & D & -> & L); [rewrite app_length; cbn; lia|].
      exists (m1 :: got), m2, left_. destruct H as (_ & _ & Hr & C & _ & F). split; [|split; [reflexivity|]].
      * eapply dr_next; [destruct r; [contradiction|discriminate]|apply F|exact C|]. rewrite <- app_assoc in D. cbn [app] in D. rewrite Hd. exact D.
      * cbn [List.length]. replace (n + S (List.length got)) with (S n + List.length got) by lia. exact L.
    + assert (Ep : exists r', r = p ++ r' /\ r' <> [] /\ q = r' ++ f).
      { exists (skipn (List.length p) r). assert (A : firstn (List.length p) r = p).
        { apply (f_equal (firstn (List.length p))) in Ef. rewrite !firstn_app, Nat.sub_diag, firstn_all in Ef. cbn [firstn] in Ef. rewrite app_nil_r in Ef.
          replace (List.length p - List.length r) with 0 in Ef by lia. cbn [firstn] in Ef. rewrite app_nil_r in Ef. exact Ef. }
        assert (B : r = p ++ skipn (List.length p) r) by (rewrite <- A at 1; symmetry; apply firstn_skipn). split; [exact B|]. split.
        - intro X. rewrite X, app_nil_r in B. subst r. lia.
        - rewrite B in Ef. rewrite <- app_assoc in Ef. apply app_inv_head in Ef. symmetry. exact Ef. }
      destruct Ep as (r' & -> & Hr' & ->). destruct (waits_part _ _ _ _ H Hr') as (m2 & E & C & W). exists [], m2, (m1 :: ms). rewrite app_nil_r. split; [|split; [reflexivity|]].
      * destruct p as [|c p]; [|eapply dr_more; [discriminate|exact E|exact C|constructor]].
        pose proof H as (_ & C0 & _). rewrite feed_resp, BF_nil in E. cbn [bind] in E. unfold resp in E. cbn [fst snd] in E.
        destruct (continue_dec m) as [[K _]|K]; [congruence|]. injection E as <-. constructor.
      * cbn [List.length]. rewrite Nat.add_0_r. constructor; assumption.
Qed.
Lemma take_pieces ps : forall n m f ms m' done, due n m f ms m' -> concat ps = f -> List.length done = n -> receives done m ps (done ++ ms) m'.
Proof.
  induction ps as [|p ps IH]; intros n m f ms m' done D E Hd.
  - cbn [concat] in E. symmetry in E. rename E into E0. destruct D as [n m r m' L|n m r m1 f ms m' W D2]; [subst r|].
    + destruct L as (_ & C & _ & _ & L). rewrite feed_resp, BF_nil in L. cbn [bind] in L. unfold resp in L. cbn [fst snd] in L.
      destruct (continue_dec m) as [[K _]|K]; [congruence|]. injection L as <-. rewrite app_nil_r. constructor.
    + exfalso. destruct W as (_ & _ & Hr & _). apply app_eq_nil in E0 as [X _]. contradiction.
  - cbn [concat] in E. destruct (take_piece _ _ _ _ _ D p (concat ps) done (eq_sym E) Hd) as (got & m1 & left_ & K & -> & D2).
    eapply rc_piece; [exact K|]. rewrite app_assoc. eapply IH; [exact D2|reflexivity|]. rewrite app_length. lia.
Qed.
Lemma messages_due texts : forall n ms m' tail, messages n texts ms -> begun (n + List.length texts) tail m' -> due n (parser n) (concat texts ++ tail) ms m'.
Proof.
  induction texts as [|t texts IH]; intros n ms m' tail M Bg; inversion M; subst; cbn [concat List.length] in *.
  - constructor. rewrite Nat.add_0_r in Bg. destruct Bg as (E & C & O). split; [apply reached_fresh|]. split; [apply parser_incomplete|]. auto.
  - rewrite <- app_assoc. constructor; [apply whole_waits; assumption|]. apply IH; [assumption|]. replace (S n + List.length texts) with (n + S (List.length texts)) by lia. exact Bg.
Qed.
(** However the bytes of a connection are cut into pieces, the loop finds exactly the
    messages that were put on it, one behind the other, and in the end it holds the parser
    of the message that has only begun. *)
Theorem C87_pipelined_messages texts ms tail m pieces done' m' :
  messages 0 texts ms -> begun (List.length texts) tail m -> concat pieces = concat texts ++ tail ->
  (receives [] (parser 0) pieces done' m' <-> done' = ms /\ m' = m).
Proof.
  intros M Bg E. pose proof (messages_due texts 0 ms m tail M Bg) as D. pose proof (take_pieces pieces 0 _ _ _ _ [] D E eq_refl) as R. cbn [app] in R.
  split; [intro H; exact (receives_one _ _ _ _ _ R _ _ H)|intros [-> ->]; exact R].
Qed.
(** a complete message is not changed by anything fed behind it *)
Theorem C87_message_ends_where_it_ends n text m more : whole n text m -> feed gz (parser n) (text ++ more) = Ret (m, more).
Proof. intro W. apply whole_waits in W as (_ & _ & _ & _ & _ & F). apply F. Qed.
End G.

(** ** A request and its response at the same time *)
Section I.
Variable gz : bytes -> outcome bytes.
Definition same_side (s t : side) : bool := match s, t with Req, Req | Resp, Resp => true | _, _ => false end.
Definition of_side {A : Type} (s : side) (l : list (side * A)) : list A := map snd (filter (fun p => same_side s (fst p)) l).
Definition ends (log : list (side * outcome bytes)) : Prop := ~ In Diverge (map snd log).

(** what the response is fed never matters to the request *)
Theorem C87_request_is_unaffected calls : forall c log c', conn_run gz c calls = (log, c') -> ends log ->
  alone gz (c_req c) (of_side Req calls) = (of_side Req log, c_req c').
Proof.
  induction calls as [|[s a] calls IH]; intros c log c' H Hd; cbn [conn_run] in H; [injection H as <- <-; reflexivity|].
  destruct (conn_does gz c (s, a)) as [o c1] eqn:E. cbn [fst] in H.
  assert (Hn : o <> Diverge) by (intros ->; injection H as <- <-; apply Hd; left; reflexivity).
  destruct (conn_run gz c1 calls) as [os c2] eqn:E2.
  assert (H' : log = (s, o) :: os /\ c2 = c') by (destruct o; try contradiction; injection H as <- <-; auto). destruct H' as [-> ->]. clear H.
  assert (Hd2 : ends os) by (intro X; apply Hd; right; exact X). specialize (IH _ _ _ E2 Hd2).
  destruct s; cbn [conn_does] in E.
  - change (of_side Req ((Req, a) :: calls)) with (a :: of_side Req calls). change (of_side Req ((Req, o) :: os)) with (o :: of_side Req os). cbn [alone].
    destruct (does gz (c_req c) a) as [o1 m1]. injection E as <- <-. cbn [c_req] in IH. destruct o1; try contradiction; rewrite IH; reflexivity.
  - change (of_side Req ((Resp, a) :: calls)) with (of_side Req calls). change (of_side Req ((Resp, o) :: os)) with (of_side Req os).
    destruct (does gz (msg_method _ _) a) as [o1 m1]. injection E as <- <-. exact IH.
Qed.
(** At no time was the response beyond its headers while the request's method was HEAD
    and is not in the end, or the other way round. *)
Definition method_in_time (c : conn) (calls : list (side * act)) (M : bytes) : Prop :=
  forall before after log1 c1, calls = before ++ after -> conn_run gz c before = (log1, c1) -> headers_complete (c_resp c1) = true ->
    (method_of (c_req c1) = B "HEAD" <-> M = B "HEAD").
Lemma wm_twice a b h : with_method a (with_method b h) = with_method a h.
Proof. unfold with_method. destruct (h_kind h) eqn:K; [rewrite K; reflexivity|]. reflexivity. Qed.
Lemma mm_twice a b m : msg_method a (msg_method b m) = msg_method a m.
Proof. unfold msg_method. cbn [m_buf m_off m_head m_chunks m_mode m_reader m_interim]. rewrite wm_twice, map_map. f_equal. apply map_ext. intro h. apply wm_twice. Qed.
Lemma mm_response a m : (exists b, is_response b m) -> is_response a (msg_method a m).
Proof. intros (b & v & c & p & E). exists v, c, p. cbn [msg_method m_head]. unfold with_method. rewrite E. reflexivity. Qed.
Lemma head_class a b : (a = B "HEAD" <-> b = B "HEAD") -> method_no_body a = method_no_body b.
Proof.
  intro H. unfold method_no_body. assert (K : forall x, in_list x [B "HEAD"] = bytes_eqb x (B "HEAD")) by (intro x; cbn [in_list existsb]; apply Bool.orb_false_r). rewrite !K.
  destruct (bytes_eqb a (B "HEAD")) eqn:Ea, (bytes_eqb b (B "HEAD")) eqn:Eb; try reflexivity; exfalso.
  - apply bytes_eqb_eq in Ea. apply H in Ea. rewrite Ea in Eb. discriminate.
  - apply bytes_eqb_eq in Eb. apply H in Eb. rewrite Eb in Ea. discriminate.
Qed.
Lemma mm_close a m : close (msg_method a m) = msg_method a (close m).
Proof.
  unfold close. cbn [msg_method m_reader m_mode m_chunks m_buf]. destruct (m_reader m), (m_mode m); try reflexivity; destruct (rev (m_chunks m)) as [|[o n] t]; reflexivity.
Qed.
Lemma close_response b m : is_response b m -> is_response b (close m).
Proof. intro H. unfold close. destruct (m_reader m), (m_mode m); try exact H; destruct (rev (m_chunks m)) as [|[o n] t]; exact H. Qed.
Lemma response_run M calls : forall c log c', (exists b, is_response b (c_resp c)) -> conn_run gz c calls = (log, c') -> ends log -> method_in_time c calls M ->
  alone gz (msg_method M (c_resp c)) (of_side Resp calls) = (of_side Resp log, msg_method M (c_resp c')).
Proof.
  induction calls as [|[s a] calls IH]; intros c log c' Hr H Hd Ht; cbn [conn_run] in H; [injection H as <- <-; reflexivity|].
  destruct (conn_does gz c (s, a)) as [o c1] eqn:E. cbn [fst] in H.
  assert (Hn : o <> Diverge) by (intros ->; injection H as <- <-; apply Hd; left; reflexivity).
  destruct (conn_run gz c1 calls) as [os c2] eqn:E2.
  assert (H' : log = (s, o) :: os /\ c2 = c') by (destruct o; try contradiction; injection H as <- <-; auto). destruct H' as [-> ->]. clear H.
  assert (Hd2 : ends os) by (intro X; apply Hd; right; exact X).
  assert (Ht2 : method_in_time c1 calls M).
  { intros before after log1 c3 Ec R. apply (Ht ((s, a) :: before) after ((s, o) :: log1)); [rewrite Ec; reflexivity|]. cbn [conn_run]. rewrite E, R. cbn [fst]. destruct o; try contradiction; reflexivity. }
  assert (T1 : headers_complete (c_resp c1) = true -> (method_of (c_req c1) = B "HEAD" <-> M = B "HEAD")).
  { apply (Ht [(s, a)] calls [(s, o)]); [reflexivity|]. cbn [conn_run]. rewrite E. cbn [fst]. destruct o; try contradiction; reflexivity. }
  destruct s; cbn [conn_does] in E.
  - change (of_side Resp ((Req, a) :: calls)) with (of_side Resp calls). change (of_side Resp ((Req, o) :: os)) with (of_side Resp os).
    destruct (does gz (c_req c) a) as [o1 m1]. injection E as <- <-. exact (IH (mkconn m1 (c_resp c)) _ _ Hr E2 Hd2 Ht2).
  - change (of_side Resp ((Resp, a) :: calls)) with (a :: of_side Resp calls). change (of_side Resp ((Resp, o) :: os)) with (o :: of_side Resp os). cbn [alone].
    set (b := method_of (c_req c)) in *. set (m0 := msg_method b (c_resp c)) in *. pose proof (mm_response b _ Hr) as R0. fold m0 in R0.
    assert (Em : msg_method M (c_resp c) = msg_method M m0) by (symmetry; apply mm_twice). rewrite Em.
    assert (X : does gz (msg_method M m0) a = (fst (does gz m0 a), msg_method M (snd (does gz m0 a))) /\ is_response b (snd (does gz m0 a))).
    { destruct a as [text|]; cbn [does].
      - pose proof (feed_response gz b m0 text R0) as R1. split; [|exact R1].
        refine (proj1 (sg_feed M gz b m0 text R0 _)). intro Hc. cbn [does] in E. destruct (x_feed gz m0 text) as [o1 m1]. injection E as <- <-. cbn [snd] in *. cbn [c_resp c_req] in T1.
        specialize (T1 Hc). apply head_class in T1. destruct R1 as (v & k & p & K). unfold indifferent, has_body, with_method. rewrite K. cbn [h_kind set_kind]. fold b in T1. rewrite T1. reflexivity.
      - split; [rewrite mm_close; reflexivity|apply close_response, R0]. }
    destruct X as [X R1]. rewrite X. destruct (does gz m0 a) as [o1 m1]. injection E as <- <-. cbn [fst snd] in *. cbn [c_resp c_req] in *.
    assert (I : alone gz (msg_method M m1) (of_side Resp calls) = (of_side Resp os, msg_method M (c_resp c'))).
    { apply (IH (mkconn (c_req c) m1)); [exists b; exact R1|exact E2|exact Hd2|exact Ht2]. }
    destruct o1; try contradiction; rewrite I; reflexivity.
Qed.
(** However the calls on the two parsers are interleaved, the response is read as by a
    parser that was told the method from the start - as long as it does not get beyond its
    headers before the request's start line is read; and that matters only for HEAD. *)
Theorem C87_response_as_if_alone ign1 ign2 calls log c' :
  conn_run gz (new_conn ign1 ign2) calls = (log, c') -> ends log -> method_in_time (new_conn ign1 ign2) calls (method_of (c_req c')) ->
  alone gz (parser_for (Some (method_of (c_req c'))) ign2) (of_side Resp calls) = (of_side Resp log, msg_method (method_of (c_req c')) (c_resp c')).
Proof.
  intros H Hd Ht. refine (response_run _ _ (new_conn ign1 ign2) _ _ _ H Hd Ht). exists []. do 3 eexists. reflexivity.
Qed.
(** The usual order: the request's start line has been read (its parser is beyond the first
    line, or was closed) before the response gets its first byte. *)
Lemma request_stays calls : forall c log c', conn_run gz c calls = (log, c') -> (exists a b d e, h_kind (m_head (c_req c)) = KRequest a b d e) -> m_mode (c_req c) <> Start ->
  h_kind (m_head (c_req c')) = h_kind (m_head (c_req c)).
Proof.
  induction calls as [|[s a] calls IH]; intros c log c' H Hk Hm; cbn [conn_run] in H; [injection H as <- <-; reflexivity|].
  destruct (conn_does gz c (s, a)) as [o c1] eqn:E. cbn [fst] in H.
  assert (K : h_kind (m_head (c_req c1)) = h_kind (m_head (c_req c)) /\ m_mode (c_req c1) <> Start).
  { destruct s; cbn [conn_does] in E.
    - destruct Hk as (x & y & z & w & Hk). pose proof (request_does_begun gz (c_req c) a _ _ _ _ Hk Hm) as B. destruct (does gz (c_req c) a) as [o1 m1]. injection E as <- <-. exact B.
    - destruct (does gz (msg_method _ _) a) as [o1 m1]. injection E as <- <-. split; [reflexivity|exact Hm]. }
  destruct K as [K1 K2]. destruct (conn_run gz c1 calls) as [os c2] eqn:E2.
  assert (Hk1 : exists a b d e, h_kind (m_head (c_req c1)) = KRequest a b d e) by (rewrite K1; exact Hk).
  pose proof (IH _ _ _ E2 Hk1 K2) as I. destruct o; injection H as <- <-; congruence.
Qed.
Lemma conn_run_app xs : forall ys c log1 c1, conn_run gz c xs = (log1, c1) -> ends log1 -> conn_run gz c (xs ++ ys) = (let '(log2, c2) := conn_run gz c1 ys in (log1 ++ log2, c2)).
Proof.
  induction xs as [|x xs IH]; intros ys c log1 c1 H Hd; cbn [conn_run app] in *; [injection H as <- <-; destruct (conn_run gz c ys); reflexivity|].
  destruct (conn_does gz c x) as [o c2]. assert (Hn : o <> Diverge) by (intros ->; injection H as <- <-; apply Hd; left; reflexivity).
  destruct (conn_run gz c2 xs) as [os c3] eqn:E. assert (H' : log1 = (fst x, o) :: os /\ c3 = c1) by (destruct o; try contradiction; injection H as <- <-; auto). destruct H' as [-> ->].
  rewrite (IH ys _ _ _ E) by (intro X; apply Hd; right; exact X). destruct (conn_run gz c1 ys) as [l2 c4]. destruct o; try contradiction; reflexivity.
Qed.
Lemma conn_run_stops xs : forall ys c log1 c1, conn_run gz c xs = (log1, c1) -> In Diverge (map snd log1) -> conn_run gz c (xs ++ ys) = (log1, c1).
Proof.
  induction xs as [|x xs IH]; intros ys c log1 c1 H Hd; cbn [conn_run app] in *; [injection H as <- <-; destruct Hd|].
  destruct (conn_does gz c x) as [o c2]. destruct (conn_run gz c2 xs) as [os c3] eqn:E. destruct o as [t|e|]; try exact H; injection H as <- <-; cbn [map snd] in Hd; destruct Hd as [Hd|Hd]; try discriminate; rewrite (IH ys _ _ _ E Hd); reflexivity.
Qed.
Lemma split_at {A : Type} (b a x y : list A) : x ++ y = b ++ a -> (exists u, x = b ++ u) \/ exists u v, b = x ++ u /\ y = u ++ v.
Proof.
  revert b. induction x as [|c x IH]; intros b E; [right; exists b, a; auto|]. destruct b as [|d b]; [left; exists (c :: x); reflexivity|]. injection E as -> E.
  destruct (IH b E) as [(u & ->)|(u & v & -> & ->)]; [left; exists u; reflexivity|right; exists u, v; auto].
Qed.
Lemma only_requests before : forall c log1 c1, (forall s a, In (s, a) before -> s = Req) -> conn_run gz c before = (log1, c1) -> is_request (c_req c) ->
  c_resp c1 = c_resp c /\ is_request (c_req c1) /\ of_side Resp before = [].
Proof.
  induction before as [|[s a] before IH]; intros c log1 c1 Hs H Hq; cbn [conn_run] in H; [injection H as <- <-; repeat split; exact Hq|].
  assert (s = Req) by (apply (Hs s a); left; reflexivity). subst s. cbn [conn_does] in H. pose proof (does_request gz (c_req c) a Hq) as Q.
  destruct (does gz (c_req c) a) as [o m1]. cbn [fst snd] in *. destruct (conn_run gz (mkconn m1 (c_resp c)) before) as [os c2] eqn:E.
  destruct (IH (mkconn m1 (c_resp c)) os c2) as (A & B & C); [intros s b X; apply (Hs s b); right; exact X|exact E|exact Q|].
  change (of_side Resp ((Req, a) :: before)) with (of_side Resp before). destruct o; injection H as <- <-; auto.
Qed.
Theorem C87_request_line_first ign1 ign2 before after log1 c1 log c' :
  (forall s a, In (s, a) before -> s = Req) -> conn_run gz (new_conn ign1 ign2) before = (log1, c1) -> m_mode (c_req c1) <> Start ->
  conn_run gz (new_conn ign1 ign2) (before ++ after) = (log, c') -> ends log ->
  method_of (c_req c') = method_of (c_req c1) /\
  alone gz (parser_for (Some (method_of (c_req c1))) ign2) (of_side Resp after) = (of_side Resp log, msg_method (method_of (c_req c1)) (c_resp c')).
Proof.
  intros Hs H1 Hm H Hd.
  assert (Q0 : is_request (c_req (new_conn ign1 ign2))) by (do 4 eexists; reflexivity).
  destruct (only_requests before _ _ _ Hs H1 Q0) as (A & Q & Ho).
  assert (Hd1 : ends log1).
  { intro X. pose proof H1 as H1'. apply Hd. rewrite (conn_run_stops _ after _ _ _ H1' X) in H. injection H as <- <-. exact X. }
  pose proof (conn_run_app _ after _ _ _ H1 Hd1) as R. rewrite H in R. destruct (conn_run gz c1 after) as [log2 c2] eqn:E2. injection R as -> <-.
  assert (M : method_of (c_req c') = method_of (c_req c1)) by (unfold method_of; rewrite (request_stays _ _ _ _ E2 Q Hm); reflexivity).
  split; [exact M|]. rewrite <- M.
  assert (T : method_in_time (new_conn ign1 ign2) (before ++ after) (method_of (c_req c'))).
  { intros b a log3 c3 Eb R3 Hc. destruct (split_at b a before after Eb) as [(x & ->)|(x & y & -> & ->)].
    - destruct (only_requests b _ _ _ (fun s u X => Hs s u (in_or_app _ _ _ (or_introl X))) R3 Q0) as (K & _). rewrite K in Hc. discriminate Hc.
    - rewrite (conn_run_app _ x _ _ _ H1 Hd1) in R3. destruct (conn_run gz c1 x) as [l4 c4] eqn:E4. injection R3 as <- <-.
      unfold method_of at 1. rewrite (request_stays _ _ _ _ E4 Q Hm). fold (method_of (c_req c1)). rewrite M. reflexivity. }
  pose proof (C87_response_as_if_alone _ _ _ _ _ H Hd T) as F. unfold of_side in F at 1. rewrite filter_app, map_app in F. fold (of_side Resp before) in F. rewrite Ho in F. exact F.
Qed.
End I.

(** ** Concrete cases *)
Definition no_gzip (b : bytes) : outcome bytes := Raise EZlibError.
Lemma no_gzip_ok : gz_ok no_gzip. Proof. intro b. cbn. auto. Qed.
Definition c87_conf (n : nat) : option bytes * list bytes := (match n with 0 => Some (B "HEAD") | _ => Some (B "GET") end, []).
(** a response to HEAD (its length is of no body), one with a length, one in chunks with a
    trailer, and the beginning of a fourth *)
Definition c87_texts : list bytes :=
  [ B "HTTP/1.1 200 OK" ++ CRLF ++ B "Content-Length: 9" ++ CRLF ++ CRLF;
    B "HTTP/1.1 404 Not Found" ++ CRLF ++ B "Content-Length: 3" ++ CRLF ++ CRLF ++ B "abc";
    B "HTTP/1.1 200 OK" ++ CRLF ++ B "Transfer-Encoding: chunked" ++ CRLF ++ CRLF ++ B "2" ++ CRLF ++ B "ab" ++ CRLF ++ B "0" ++ CRLF ++ B "T: u" ++ CRLF ++ CRLF ].
Definition c87_tail : bytes := B "HTTP/1.1 200 OK" ++ CRLF ++ B "Content-Len".
Definition c87_made (n : nat) (text : bytes) : msg := match feed no_gzip (parser c87_conf n) text with Ret (m, _) => m | _ => parser c87_conf n end.
Lemma c87_orderly m : m_mode m <> Start -> h_encoding (m_head m) = None -> m_reader m <> None \/ h_mode (m_head m) <> MChunked -> status m <> Some 100%Z -> orderly (Ret (m, @nil N)).
Proof. intros A E K C. split; [reflexivity|]. split; [intros (_ & e & X & _); congruence|]. split; [intros (_ & X & Y); destruct K; contradiction|]. intros [_ X]. contradiction. Qed.
Definition c87_fine (n : nat) (text : bytes) : Prop :=
  match feed no_gzip (parser c87_conf n) text with
  | Ret (m, []) => complete m = true /\ h_encoding (m_head m) = None /\ status m <> Some 100%Z
  | _ => False
  end.
Lemma c87_whole n text : c87_fine n text -> whole no_gzip c87_conf n text (c87_made n text).
Proof.
  unfold c87_fine, c87_made, whole. destruct (feed no_gzip (parser c87_conf n) text) as [[m [|c t]]| |]; try contradiction. intros (A & E & C). split; [reflexivity|]. split; [exact A|].
  unfold complete in A. split; [reflexivity|]. split; [intros (_ & e & X & _); congruence|]. split; [intros (X & _); rewrite X in A; discriminate|]. intros [_ X]. contradiction.
Qed.
Example C87_pipeline_case : exists ms m,
  messages no_gzip c87_conf 0 c87_texts ms /\ begun no_gzip c87_conf 3 c87_tail m /\
  map get_body ms = [[]; B "abc"; B "ab"] /\ map status ms = [Some 200%Z; Some 404%Z; Some 200%Z] /\
  forall pieces, concat pieces = concat c87_texts ++ c87_tail -> receives no_gzip c87_conf [] (parser c87_conf 0) pieces ms m.
Proof.
  exists [c87_made 0 (nth 0 c87_texts []); c87_made 1 (nth 1 c87_texts []); c87_made 2 (nth 2 c87_texts [])], (c87_made 3 c87_tail).
  assert (M : messages no_gzip c87_conf 0 c87_texts [c87_made 0 (nth 0 c87_texts []); c87_made 1 (nth 1 c87_texts []); c87_made 2 (nth 2 c87_texts [])]).
  { apply ms_cons; [apply c87_whole; vm_compute; intuition discriminate|]. apply ms_cons; [apply c87_whole; vm_compute; intuition discriminate|].
    apply ms_cons; [apply c87_whole; vm_compute; intuition discriminate|]. apply ms_nil. }
  assert (B : begun no_gzip c87_conf 3 c87_tail (c87_made 3 c87_tail)).
  { split; [vm_compute; reflexivity|]. split; [vm_compute; reflexivity|]. apply c87_orderly; try (vm_compute; discriminate); [vm_compute; reflexivity|right; vm_compute; discriminate]. }
  split; [exact M|]. split; [exact B|]. split; [vm_compute; reflexivity|]. split; [vm_compute; reflexivity|].
  intros pieces E. apply (proj2 (C87_pipelined_messages no_gzip c87_conf no_gzip_ok _ _ _ _ pieces _ _ M B E)). auto.
Qed.
Definition c87_head_request : bytes := B "HEAD / HTTP/1.1" ++ CRLF ++ B "Host: a" ++ CRLF ++ CRLF.
Definition c87_response : bytes := B "HTTP/1.1 200 OK" ++ CRLF ++ B "Content-Length: 9" ++ CRLF ++ CRLF.
(** the request's start line comes first, the rest of it later than the response: the
    response to HEAD is complete without a body, and the next one is left unread *)
Example C87_in_time_case :
  (let '(log, c) := conn_run no_gzip (new_conn [] []) [(Req, Feed (firstn 20 c87_head_request)); (Resp, Feed (firstn 9 c87_response)); (Req, Feed (skipn 20 c87_head_request)); (Resp, Feed (skipn 9 c87_response ++ B "HTTP/1.1"))] in
   map snd log = [Ret []; Ret []; Ret []; Ret (B "HTTP/1.1")] /\ complete (c_resp c) = true /\ complete (c_req c) = true /\ get_body (c_resp c) = [] /\ method_of (c_req c) = B "HEAD") /\
  (let '(log1, c1) := conn_run no_gzip (new_conn [] []) [(Req, Feed (firstn 20 c87_head_request))] in m_mode (c_req c1) <> Start /\ ends log1).
Proof. split; [vm_compute; repeat split|]. split; [vm_compute; discriminate|]. intros [X|[]]. discriminate. Qed.
(** the response's headers come first: the nine bytes that follow, the beginning of the
    next response, are taken to be its body *)
Example C87_too_late_refuted :
  (let '(log, c) := conn_run no_gzip (new_conn [] []) [(Resp, Feed c87_response); (Req, Feed c87_head_request); (Resp, Feed (B "HTTP/1.1 200 OK"))] in
   map snd log = [Ret []; Ret []; Ret (B "200 OK")] /\ complete (c_resp c) = true /\ get_body (c_resp c) = B "HTTP/1.1 ") /\
  (let '(outs, m) := alone no_gzip (parser_for (Some (B "HEAD")) []) [Feed c87_response; Feed (B "HTTP/1.1 200 OK")] in
   outs = [Ret []; Ret (B "HTTP/1.1 200 OK")] /\ complete m = true /\ get_body m = []) /\
  ~ method_in_time no_gzip (new_conn [] []) [(Resp, Feed c87_response); (Req, Feed c87_head_request); (Resp, Feed (B "HTTP/1.1 200 OK"))] (B "HEAD").
Proof.
  split; [vm_compute; repeat split|]. split; [vm_compute; repeat split|]. intro H. set (calls := [(Resp, Feed c87_response)]) in *.
  destruct (conn_run no_gzip (new_conn [] []) calls) as [log1 c1] eqn:E.
  specialize (H calls [(Req, Feed c87_head_request); (Resp, Feed (B "HTTP/1.1 200 OK"))] log1 c1 eq_refl E).
  assert (F : (headers_complete (c_resp c1), method_of (c_req c1)) = (true, [])) by (change c1 with (snd (log1, c1)); rewrite <- E; vm_compute; reflexivity).
  injection F as F1 F2. rewrite F2 in H. specialize (proj2 (H F1) eq_refl). discriminate.
Qed.
