(** C67: HTTP/0.9 responses *)
From Verif Require Export Http09 HttpRun.
From Coq Require Import String List Lia.
Open Scope list_scope.

(** what a caller can do with a response and its HTTP/0.9 view, in any order *)
Inductive op09 : Type := FeedView (text : bytes) | CloseView.
Definition step09 (v : view09) (o : op09) : view09 :=
  match o with FeedView t => fst (feed09 v t) | CloseView => close09 v end.
Definition fed (o : op09) : bytes := match o with FeedView t => t | CloseView => [] end.
Definition closes (o : op09) : bool := match o with FeedView _ => false | CloseView => true end.

(** The view of any response, in any state: message, body and decoded message are the bytes
    the response had stored followed by all bytes fed since, however they were split and also
    after close; nothing is ever left over; it is complete once closed; the response itself
    shows the same message, because the buffer is shared. *)
Theorem C67_view_keeps_all_bytes : forall (m : msg) (ops : list op09),
  let v := fold_left step09 ops (as_http09 m) in
  get_message09 v = get_message m ++ concat (map fed ops) /\ get_body09 v = get_message09 v /\ get_decoded09 v = get_message09 v /\
  (complete09 v = true <-> exists o, In o ops /\ closes o = true) /\
  get_message (v_resp v) = get_message09 v /\ (forall text, snd (feed09 v text) = []) /\
  (* the head counts as read, and everything there is is wanted, also after close() *)
  headers_complete09 v = true /\ feed_predict09 v = WantAll.
Proof.
  intros m ops.
  assert (G : forall ops v, get_message09 (fold_left step09 ops v) = get_message09 v ++ concat (map fed ops) /\
     (complete09 (fold_left step09 ops v) = true <-> complete09 v = true \/ exists o, In o ops /\ closes o = true)).
  { clear. induction ops as [|o ops IH]; intro v; cbn [fold_left map concat]; [rewrite app_nil_r; split; [reflexivity|]; split; [auto|]; intros [H|(o & [] & _)]; exact H|].
    destruct (IH (step09 v o)) as [E1 E2]. split.
    - rewrite E1. destruct o as [t|]; cbn [step09 feed09 fst get_message09 v_resp m_buf set_buf close09 fed]; [rewrite <- app_assoc|]; reflexivity.
    - rewrite E2. destruct o as [t|]; cbn [step09 feed09 fst complete09 v_end close09]; split.
      + intros [H|(o & H & Hc)]; [left; exact H|right; exists o; split; [right; exact H|exact Hc]].
      + intros [H|(o & [<-|H] & Hc)]; [left; exact H|discriminate|right; eauto].
      + intros _. right. exists CloseView. split; [left; reflexivity|reflexivity].
      + intros _. left. reflexivity. }
  destruct (G ops (as_http09 m)) as [E1 E2]. intro v. repeat split; try reflexivity.
  - exact E1.
  - intro H. apply E2 in H as [H|H]; [discriminate|exact H].
  - intro H. apply E2. right. exact H.
Qed.

(** a status line: a version, a space, a number and possibly more after a space *)
Definition status_line (line : bytes) : Prop :=
  exists version code rest, rstrip line = version ++ SP :: code ++ rest /\ ~ In SP version /\ ~ In SP code /\
    (rest = [] \/ exists x, rest = SP :: x) /\ py_int 10 code <> None.
Lemma no_status_raises h line rm v c p : h_kind h = KResponse rm v c p -> ~ status_line line -> set_start_line h line = Raise EValueError.
Proof.
  intros Hk Hn. unfold set_start_line. rewrite Hk. cbn [split_max].
  destruct (split_once SP (rstrip line)) as [[a b]|] eqn:E1; [|reflexivity]. apply split_once_some in E1 as [E1 N1].
  destruct (split_once SP b) as [[a2 b2]|] eqn:E2.
  - apply split_once_some in E2 as [E2 N2]. destruct (py_int 10 a2) eqn:Ep; [|reflexivity]. exfalso. apply Hn. exists a, a2, (SP :: b2). rewrite E1, E2. repeat split; eauto. congruence.
  - apply split_once_none in E2. destruct (py_int 10 b) eqn:Ep; [|reflexivity]. exfalso. apply Hn. exists a, b, []. rewrite E1, app_nil_r. repeat split; auto. congruence.
Qed.
Lemma status_accepted h line rm v c p : h_kind h = KResponse rm v c p -> status_line line -> exists h', set_start_line h line = Ret h'.
Proof.
  intros Hk (version & code & rest & E & N1 & N2 & Hr & Hp). unfold set_start_line. rewrite Hk. cbn [split_max]. rewrite E, split_once_hit by exact N1.
  destruct Hr as [->|[x ->]].
  - rewrite app_nil_r. apply split_once_none in N2. rewrite N2. destruct (py_int 10 code); [eauto|congruence].
  - rewrite split_once_hit by exact N2. destruct (py_int 10 code); [eauto|congruence].
Qed.

(** a response object nothing of whose first line has arrived but [got] *)
Definition waiting (m : msg) (got : bytes) : Prop :=
  m_mode m = Start /\ m_buf m = got /\ m_off m = 0 /\ exists rm v c p, h_kind (m_head m) = KResponse rm v c p.
Lemma waiting_new rm ign : waiting (new_response rm ign) [].
Proof. repeat split. do 4 eexists. reflexivity. Qed.
Lemma waiting_bwf m got : waiting m got -> ~ In LF got -> bwf m.
Proof. intros (_ & E & O & _) H. split; [lia|]. unfold pending. rewrite O, E. exact H. Qed.
Section S.
Variable gz : bytes -> outcome bytes.
Lemma waiting_more m got text : waiting m got -> ~ In LF (got ++ text) -> exists m', feed gz m text = Ret (m', []) /\ waiting m' (got ++ text).
Proof.
  intros Hw Hn. assert (Hb : bwf m) by (apply (waiting_bwf _ _ Hw); intro; apply Hn, in_or_app; auto).
  destruct Hw as (Em & Eb & Eo & rm & v & c & p & Ek).
  assert (HB : base_feed gz m text = Ret (pushed m text, [])).
  { unfold base_feed. rewrite Em. destruct text as [|x t].
    - cbn [empty_text bind]. replace (pushed m []) with m by (destruct m; unfold pushed, set_buf; cbn; rewrite app_nil_r; reflexivity). rewrite Em. cbn [bind]. rewrite Em. reflexivity.
    - cbn [empty_text]. unfold feed_start. rewrite (feed_line_eq _ _ Hb).
      assert (E : split_once LF (x :: t) = None) by (apply split_once_none; intro; apply Hn, in_or_app; auto). rewrite E. cbn [bind].
      assert (M : m_mode (pushed m (x :: t)) = Start) by exact Em. rewrite M. cbn [bind]. rewrite M. reflexivity. }
  exists (pushed m text). split.
  - unfold feed. rewrite Ek, HB. cbn [bind]. assert (K : h_kind (m_head (pushed m text)) = KResponse rm v c p) by exact Ek. rewrite K.
    unfold complete. assert (M : m_mode (pushed m text) = Start) by exact Em. rewrite M. reflexivity.
  - repeat split; [exact Em|cbn; rewrite Eb; reflexivity|exact Eo|]. do 4 eexists. exact Ek.
Qed.
Lemma waiting_all pieces : forall m got, waiting m got -> ~ In LF (got ++ concat pieces) -> exists m', feed_all gz m pieces = Ret (m', []) /\ waiting m' (got ++ concat pieces).
Proof.
  induction pieces as [|p ps IH]; intros m got Hw Hn; cbn [feed_all concat].
  - exists m. rewrite app_nil_r. split; [reflexivity|exact Hw].
  - cbn [concat] in Hn. rewrite app_assoc in Hn. destruct (waiting_more m got p Hw) as (m1 & E & Hw1); [intro; apply Hn, in_or_app; auto|]. rewrite E. cbn [bind snd fst].
    destruct (IH m1 (got ++ p) Hw1 Hn) as (m2 & E2 & Hw2). exists m2. split; [exact E2|]. rewrite app_assoc. exact Hw2.
Qed.
End S.

(** An answer without status line, fed in pieces, the first line ending in the middle of one
    of them: that feed raises ValueError.  The HTTP/0.9 view made then has the first line and
    what is fed later, but what followed the first line in that piece ([lost]) is gone. *)
Theorem C67_fallback_loses_bytes : forall gz rm ign (early : list bytes) (a lost : bytes),
  let line := concat early ++ a ++ [LF] in
  ~ In LF (concat early ++ a) -> ~ In line NEWLINES -> ~ status_line line ->
  exists m m', feed_all gz (new_response rm ign) early = Ret (m, []) /\
    attempt gz m (a ++ LF :: lost) = Some (Raise EValueError, m') /\
    forall ops, get_body09 (fold_left step09 ops (as_http09 m')) = line ++ concat (map fed ops).
Proof.
  intros gz rm ign early a lost line Hlf Hnl Hst.
  destruct (waiting_all gz early _ [] (waiting_new rm ign)) as (m & E & Hw); [cbn [app]; intro; apply Hlf, in_or_app; auto|]. cbn [app] in Hw.
  assert (Hb : bwf m) by (apply (waiting_bwf _ _ Hw); intro; apply Hlf, in_or_app; auto).
  destruct Hw as (Em & Eb & Eo & rm' & v & c & p & Ek).
  assert (Hs : split_once LF (a ++ LF :: lost) = Some (a, lost)) by (apply split_once_hit; intro; apply Hlf, in_or_app; auto).
  assert (Hp : pending m = concat early) by (unfold pending; rewrite Eo, Eb; reflexivity).
  assert (Hfs : feed_start m (a ++ LF :: lost) = Raise EValueError).
  { unfold feed_start. rewrite (feed_line_eq _ _ Hb), Hs, Hp. fold line.
    destruct (in_list line NEWLINES) eqn:En.
    - exfalso. apply Hnl. unfold in_list in En. apply existsb_exists in En as (y & Hy & Ey). apply bytes_eqb_eq in Ey. rewrite Ey. exact Hy.
    - rewrite (no_status_raises _ line rm' v c p); [reflexivity|exact Ek|exact Hst]. }
  exists m, (took m (a ++ [LF])). split; [exact E|]. split.
  - unfold attempt, feed. rewrite Ek. unfold base_feed. rewrite Em.
    assert (He : empty_text (a ++ LF :: lost) = false) by (destruct a; reflexivity). rewrite He, Hfs. cbn [bind].
    rewrite (feed_line_eq _ _ Hb), Hs. reflexivity.
  - intro ops. destruct (C67_view_keeps_all_bytes (took m (a ++ [LF])) ops) as (E1 & E2 & _). cbv zeta in *. rewrite E2, E1. unfold get_message, took. cbn [m_buf set_buf]. rewrite Eb. reflexivity.
Qed.
(** While no line end has arrived nothing is lost and nothing is raised. *)
Theorem C67_answer_without_newline : forall gz rm ign (pieces : list bytes), ~ In LF (concat pieces) ->
  exists m, feed_all gz (new_response rm ign) pieces = Ret (m, []) /\
    forall ops, get_body09 (fold_left step09 ops (as_http09 m)) = concat pieces ++ concat (map fed ops).
Proof.
  intros gz rm ign pieces Hn. destruct (waiting_all gz pieces _ [] (waiting_new rm ign)) as (m & E & Hw); [exact Hn|]. exists m. split; [exact E|].
  intro ops. destruct (C67_view_keeps_all_bytes m ops) as (E1 & E2 & _). cbv zeta in *. rewrite E2, E1. destruct Hw as (_ & Eb & _). unfold get_message. rewrite Eb. reflexivity.
Qed.
(** The complement: with a status line the first feed does not refuse the line. *)
Theorem C67_status_line_accepted : forall rm ign (line : bytes), ~ In LF line -> status_line (line ++ [LF]) -> ~ In (line ++ [LF]) NEWLINES ->
  exists m, feed_start (new_response rm ign) (line ++ [LF]) = Ret (m, []) /\ m_mode m = Headers.
Proof.
  intros rm ign line Hlf Hs Hn. unfold feed_start. rewrite feed_line_eq by (apply (waiting_bwf _ _ (waiting_new rm ign)); intros []).
  rewrite split_once_hit by exact Hlf. cbn [pending new_response new_msg m_buf m_off skipn app].
  destruct (in_list (line ++ [LF]) NEWLINES) eqn:En.
  - exfalso. apply Hn. unfold in_list in En. apply existsb_exists in En as (y & Hy & Ey). apply bytes_eqb_eq in Ey. rewrite Ey. exact Hy.
  - destruct (status_accepted (new_response_hdr rm ign) (line ++ [LF]) rm _ _ _ eq_refl Hs) as (h0 & E).
    match goal with |- context [set_start_line ?h ?l] => replace (set_start_line h l) with (Ret h0) by (symmetry; exact E) end. cbn [bind]. eexists. split; reflexivity.
Qed.
(** write_message never works; the content type of the view is a text that shows the byte
    string of its base class, so it equals no byte string *)
Theorem C67_write_message_fails : forall m buf, write_message m buf = (Raise EAttributeError, buf).
Proof. reflexivity. Qed.
Theorem C67_content_type_of_the_view : CT_HTTP09 = PText (B "b'application/http';msgtype=response;version=0.9") /\
  CT_REQUEST = PBytes (B "application/http;msgtype=request") /\ CT_RESPONSE = PBytes (B "application/http;msgtype=response").
Proof. vm_compute. repeat split. Qed.

(** a case: HTML without a status line, split inside the first line *)
Example C67_case : let early := [B "<ht"] in let a := B "ml>" in
  ~ In LF (concat early ++ a) /\ ~ In (concat early ++ a ++ [LF]) NEWLINES /\ ~ status_line (concat early ++ a ++ [LF]).
Proof.
  cbn zeta. split; [vm_compute; intuition discriminate|]. split; [vm_compute; intuition discriminate|].
  intros (version & code & rest & E & _).
  assert (X : In SP (version ++ SP :: code ++ rest)) by (apply in_or_app; right; left; reflexivity).
  rewrite <- E in X. vm_compute in X. intuition discriminate.
Qed.
Example C67_case_lost : match feed_all (fun _ => Raise EOSError) (new_response (B "GET") []) [B "<ht"] with
  | Ret (m, _) => match attempt (fun _ => Raise EOSError) m (B "ml>" ++ [LF] ++ B "<body>") with
                  | Some (Raise _, m') => get_body09 (fst (feed09 (as_http09 m') (B "more"))) = B "<html>" ++ [LF] ++ B "more"
                  | _ => False end | _ => False end.
Proof. vm_compute. reflexivity. Qed.
