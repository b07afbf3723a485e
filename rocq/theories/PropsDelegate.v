(** C93: what a response says about its request *)
From Verif Require Export Delegate AttrsFacts PropsConn PropsAttrs.
From Coq Require Import String List Lia ZArith.
Open Scope list_scope.

(** ** Specification *)
(** the calls among some events, and those on the request *)
Definition calls_in (events : list event) : list (side * act) := flat_map (fun e => match e with Call s a => [(s, a)] | Ask _ _ => [] end) events.
Definition request_calls (events : list event) : list act := of_side Req (calls_in events).
Definition done_in (log : list reply) : list (outcome bytes) := flat_map (fun r => match r with Done o => [o] | Says _ => [] end) log.

(** what a request with these attributes says of itself; the url is put together from scheme, host, port and target as in C90 *)
Inductive said_by : attrs -> attr_name -> pyval -> Prop :=
| SaidScheme m t v h p s : said_by (ARequest m t v h p s) NScheme s
| SaidMethod m t v h p s : said_by (ARequest m t v h p s) NMethod m
| SaidHost m t v h p s : said_by (ARequest m t v h p s) NHost h
| SaidPort m t v h p s : said_by (ARequest m t v h p s) NPort p
| SaidUrl m t v h p s : default_port s p -> said_by (ARequest m t v h p s) NUrl (PText (show s ++ B "://" ++ show h ++ show t))
| SaidUrlPort m t v h p s : ~ default_port s p -> said_by (ARequest m t v h p s) NUrl (PText (show s ++ B "://" ++ show h ++ B ":" ++ show p ++ show t)).
(** a response has as many interim responses as it has received *)
Definition there (b : both) (w : whom) : bool := match w with AnInterim j => Nat.ltb j (List.length (m_interim (b_resp b))) | _ => true end.

Section Gz.
Variable gz : bytes -> outcome bytes.
(** ** Asking changes nothing: the connection is that of C87 *)
Lemma b_call_conn b s a : let '(o, b') := b_call gz b s a in conn_does gz (mkconn (b_req b) (b_resp b)) (s, a) = (o, mkconn (b_req b') (b_resp b')).
Proof.
  destruct s; cbn [b_call conn_does c_req c_resp].
  - pose proof (a_does_msg gz (b_req b) (b_req_attrs b) a) as E. destruct (a_does gz (b_req b) (b_req_attrs b) a) as [[o m] t]. cbn [fst] in E. rewrite <- E. reflexivity.
  - pose proof (a_does_msg gz (msg_method (method_of (b_req b)) (b_resp b)) (b_resp_attrs b) a) as E. destruct (a_does gz _ (b_resp_attrs b) a) as [[o m] t]. cbn [fst] in E. rewrite <- E. reflexivity.
Qed.
Theorem C93_asking_changes_nothing : forall events b log b', b_run gz b events = (log, b') -> exists log',
  conn_run gz (mkconn (b_req b) (b_resp b)) (calls_in events) = (log', mkconn (b_req b') (b_resp b')) /\ map snd log' = done_in log.
Proof.
  induction events as [|[s a|w n] events IH]; intros b log b' E; cbn [b_run] in E.
  - injection E as <- <-. exists []. auto.
  - pose proof (b_call_conn b s a) as C. destruct (b_call gz b s a) as [o b1]. change (calls_in (Call s a :: events)) with ((s, a) :: calls_in events). cbn [conn_run]. rewrite C.
    destruct o as [t|e|]; [| |injection E as <- <-; eexists; split; reflexivity];
      (destruct (b_run gz b1 events) as [l b2] eqn:E1; injection E as <- <-; destruct (IH _ _ _ E1) as (l' & -> & M); eexists; split; [reflexivity|]; cbn; f_equal; exact M).
  - destruct (b_run gz b events) as [l b2] eqn:E1. injection E as <- <-. destruct (IH _ _ _ E1) as (l' & C & M). exists l'. split; [exact C|exact M].
Qed.
(** ** The request's attributes *)
Lemma b_call_request b a : b_call gz b Req a = (let '(o, m, t) := a_does gz (b_req b) (b_req_attrs b) a in (o, mkboth m t (b_resp b) (b_resp_attrs b))).
Proof. reflexivity. Qed.
Lemma a_run_app m a xs ys outs m' a' : a_run gz m a xs = (outs, m', a') -> ~ In Diverge outs -> a_run gz m a (xs ++ ys) = (let '(os, m2, a2) := a_run gz m' a' ys in (outs ++ os, m2, a2)).
Proof.
  revert m a outs. induction xs as [|x xs IH]; intros m a outs E N; cbn [a_run app] in *.
  - injection E as <- <- <-. destruct (a_run gz m a ys) as [[os m2] a2]. reflexivity.
  - destruct (a_does gz m a x) as [[o m1] a1]. destruct (a_run gz m1 a1 xs) as [[os1 m2] a2] eqn:E1.
    assert (H : outs = o :: os1 /\ m2 = m' /\ a2 = a' /\ o <> Diverge).
    { destruct o; injection E as <- <- <-; [repeat split; discriminate..|]. exfalso. apply N. left. reflexivity. }
    destruct H as (-> & -> & -> & No). rewrite (IH _ _ _ E1) by (intro X; apply N; right; exact X). destruct (a_run gz m' a' ys) as [[os m2] a2]. destruct o; [reflexivity..|contradiction].
Qed.
Lemma request_calls_cons e events : request_calls (e :: events) = (match e with Call Req a => [a] | _ => [] end) ++ request_calls events.
Proof. destruct e as [[|] a|w n]; reflexivity. Qed.
(** before the [i]-th event, nobody having hung: the request is as if it had been alone *)
Lemma before_event events : forall b log b' i, b_run gz b events = (log, b') -> i < List.length log ->
  exists b1 outs, snd (b_run gz b (firstn i events)) = b1 /\ a_run gz (b_req b) (b_req_attrs b) (request_calls (firstn i events)) = (outs, b_req b1, b_req_attrs b1) /\ ~ In Diverge outs /\
    (forall w n, nth_error events i = Some (Ask w n) -> nth_error log i = Some (Says (ask b1 w n))).
Proof.
  induction events as [|e events IH]; intros b log b' i E Hi; cbn [b_run] in E; [injection E as <- _; cbn in Hi; lia|]. destruct i as [|i].
  - exists b, []. split; [reflexivity|]. split; [reflexivity|]. split; [auto|]. intros w n X. injection X as ->. destruct (b_run gz b events) as [l b2]. injection E as <- _. reflexivity.
  - cbn [firstn]. rewrite request_calls_cons. destruct e as [s a|w n].
    + destruct (b_call gz b s a) as [o b1] eqn:Ec. destruct (b_run gz b1 events) as [l b2] eqn:E1.
      assert (H : log = Done o :: l /\ o <> Diverge) by (destruct o; injection E as <- _; [split; [reflexivity|discriminate]..|cbn in Hi; lia]). destruct H as [-> No]. cbn [List.length] in Hi.
      destruct (IH b1 l b2 i E1 ltac:(lia)) as (b3 & outs & S0 & R & N & A). exists b3.
      assert (S1 : snd (b_run gz b (Call s a :: firstn i events)) = b3).
      { cbn [b_run]. rewrite Ec. destruct (b_run gz b1 (firstn i events)) as [l3 b4]. cbn [snd] in S0. subst b4. destruct o; [reflexivity..|contradiction]. }
      destruct s.
      * rewrite b_call_request in Ec. destruct (a_does gz (b_req b) (b_req_attrs b) a) as [[o1 m1] t1] eqn:Ed. injection Ec as <- <-. cbn [b_req b_req_attrs] in R. exists (o1 :: outs). split; [exact S1|]. split; [|split; [intros [X|X]; [exact (No X)|exact (N X)]|exact A]].
        cbn [app a_run]. rewrite Ed, R. destruct o1; [reflexivity..|contradiction].
      * cbn [b_call] in Ec. destruct (a_does gz _ (b_resp_attrs b) a) as [[o1 m1] t1]. injection Ec as <- <-. cbn [b_req b_req_attrs] in R. exists outs. repeat (split; [assumption|]). exact A.
    + destruct (b_run gz b events) as [l b2] eqn:E1. injection E as <- _. cbn [List.length] in Hi. destruct (IH b l b2 i E1 ltac:(lia)) as (b3 & outs & S0 & R & N & A). exists b3, outs.
      split; [cbn [b_run]; destruct (b_run gz b (firstn i events)) as [l3 b4]; exact S0|]. repeat (split; [assumption|]). exact A.
Qed.
(** ** Interim responses *)
Definition continues (h : hdr) : Prop := exists rm v p, h_kind h = KResponse rm v 100 p.
Lemma continues_method rm h : continues h -> continues (with_method rm h).
Proof. intros (r & v & p & E). exists rm, v, p. unfold with_method. rewrite E. reflexivity. Qed.
Lemma does_continues m a : Forall continues (m_interim m) -> Forall continues (m_interim (snd (does gz m a))).
Proof.
  intro H. destruct a as [text|]; [|cbn [does snd]; rewrite (proj1 (proj2 (proj2 (proj2 (close_parts m))))); exact H]. cbn [does]. unfold x_feed.
  pose proof (x_base_interim gz m text) as I1. destruct (h_kind (m_head m)); [rewrite I1; exact H|]. destruct (x_base gz m text) as [[t1|e|] m1]; cbn [snd] in I1 |- *; try (rewrite I1; exact H).
  destruct (h_kind (m_head m1)) as [? ? ? ?|rm1 v1 c1 p1] eqn:K; [cbn [snd]; rewrite I1; exact H|].
  destruct (complete m1 && (c1 =? 100)%Z) eqn:C; [|cbn [snd]; rewrite I1; exact H]. rewrite x_base_interim. cbn [m_interim]. rewrite I1. apply Forall_app. split; [exact H|]. constructor; [|constructor].
  apply andb_prop in C as [_ C]. apply Z.eqb_eq in C. subst c1. exists rm1, v1, p1. exact K.
Qed.
Lemma run_continues calls : forall c log c', conn_run gz c calls = (log, c') -> Forall continues (m_interim (c_resp c)) -> Forall continues (m_interim (c_resp c')).
Proof.
  induction calls as [|[s a] calls IH]; intros c log c' E H; cbn [conn_run] in E; [injection E as _ <-; exact H|].
  destruct (conn_does gz c (s, a)) as [o c1] eqn:Ec. assert (H1 : Forall continues (m_interim (c_resp c1))).
  { destruct s; cbn [conn_does] in Ec.
    - destruct (does gz (c_req c) a) as [o1 m1]. injection Ec as _ <-. exact H.
    - assert (H2 : Forall continues (m_interim (msg_method (method_of (c_req c)) (c_resp c)))) by (cbn; apply Forall_map; eapply Forall_impl; [|exact H]; intros h; apply continues_method).
      pose proof (does_continues _ a H2) as H3. destruct (does gz (msg_method _ (c_resp c)) a) as [o1 m1]. injection Ec as _ <-. exact H3. }
  destruct (conn_run gz c1 calls) as [os c2] eqn:E2. destruct o; injection E as _ <-; [exact (IH _ _ _ E2 H1)..|exact H1].
Qed.

(** ** What is known of the attributes *)
Lemma request_shape ign acts outs m a : a_run gz (parser_for None ign) (attrs_for None) acts = (outs, m, a) -> ~ In Diverge outs -> exists me t v h p s, a = ARequest me t v h p s.
Proof.
  intros E N. destruct (C90_request_attributes _ _ _ _ _ _ E N) as (lines & a0 & _ & H & [(text & _ & _ & _ & _ & ->)|(line & rest & me & t & v & h & p & s & _ & _ & _ & _ & ->)]); [|eauto 10].
  apply before_request_keeps in H as (me & t & v & ->). eauto 10.
Qed.
Lemma request_answer me t v h p s n : n <> NCode -> exists x, ask_request (ARequest me t v h p s) n = Ret x /\ said_by (ARequest me t v h p s) n x.
Proof.
  intro H. destruct n; try contradiction; cbn [ask_request]; try (eexists; split; [reflexivity|]; constructor).
  destruct (C90_url me t v h p s) as [U1 U2]. assert (D : default_port s p \/ ~ default_port s p).
  { unfold default_port. destruct (is_int 80 p) eqn:Ep; [|right; intros [_ ->]; discriminate]. destruct (is_text (B "http") s || is_text (B "https") s) eqn:Es.
    - left. split; [|destruct p as [x|x|z]; try discriminate; apply Z.eqb_eq in Ep; congruence].
      apply Bool.orb_true_iff in Es as [Es|Es]; destruct s as [x|x|z]; try discriminate; apply bytes_eqb_eq in Es; subst; auto.
    - right. intros [[-> | ->] _]; discriminate. }
  destruct D as [D|D]; [rewrite (U1 D)|rewrite (U2 D)]; (eexists; split; [reflexivity|]); constructor; exact D.
Qed.
(** the code the response's attributes show is the one its parser knows, once there is a status line *)
Definition response_sound (m : msg) (a : attrs) : Prop :=
  (exists rm v c p, h_kind (m_head m) = KResponse rm v c p) /\ (exists v c p, a = AResponse v c p) /\
  (m_mode m = Start \/ m_mode m = Incomplete \/ m_mode m <> Start /\ exists v p rm v' c p', a = AResponse v (PInt c) p /\ h_kind (m_head m) = KResponse rm v' c p').
Lemma sound_begun m a text o m' a' : m_mode m <> Start -> response_sound m a -> a_base gz m a text = (o, m', a') -> response_sound m' a'.
Proof.
  intros Hm (Kr & (v & c & p & Ea) & J) E. pose proof (a_base_msg gz m a text) as X. rewrite E in X. cbn [fst] in X. pose proof (x_base_begun gz m text Hm) as [K1 K2]. rewrite <- X in K1, K2. cbn [snd] in K1, K2.
  destruct (m_mode m) eqn:M; try congruence.
  4: { rewrite AB_done in E by auto. injection E as <- <- <-. split; [exact Kr|]. split; [eauto|]. rewrite M. auto. }
  all: destruct J as [J|[J|(_ & v1 & p1 & rm & v' & z & p' & E1 & E2)]]; try discriminate;
    assert (Hh : hosts (AResponse v1 (PInt z) p1) m a) by (unfold hosts; rewrite fold_hosts_response; exact E1);
    apply (hosts_base gz _ _ _ _ _ _ _ ltac:(rewrite M; discriminate) Hh) in E; unfold hosts in E; rewrite fold_hosts_response in E; subst a';
    (split; [rewrite K1; exact Kr|]; split; [eauto|]; right; right; split; [exact K2|]; exists v1, p1, rm, v', z, p'; split; [reflexivity|rewrite K1; exact E2]).
Qed.
Lemma sound_base m a text o m' a' : response_sound m a -> a_base gz m a text = (o, m', a') -> response_sound m' a'.
Proof.
  intros J E. destruct (m_mode m) eqn:M; try (eapply sound_begun; [|exact J|exact E]; rewrite M; discriminate).
  unfold a_base in E. rewrite M in E. destruct (empty_text text); [cbv beta iota in E; rewrite M in E; cbv beta iota in E; rewrite M in E; injection E as <- <- <-; exact J|].
  destruct J as ((rm & v & c & p & Ek) & (v0 & c0 & p0 & ->) & _). unfold a_start in E.
  assert (Fl : forall ol t1 m1, feed_line m text = (ol, t1, m1) -> m_head m1 = m_head m /\ m_mode m1 = Start).
  { intros ol t1 m1 F. unfold feed_line in F. destruct (find_from LF (m_off m) (m_buf m ++ text)); injection F as _ _ <-; split; try reflexivity; exact M. }
  destruct (feed_line m text) as [[[line|] t1] m1] eqn:F; destruct (Fl _ _ _ eq_refl) as [H1 H2].
  2: { cbv beta iota in E. rewrite H2 in E. cbv beta iota in E. rewrite H2 in E. injection E as <- <- <-. split; [rewrite H1; eauto|]. split; [eauto|]. auto. }
  destruct (in_list line NEWLINES); [cbv beta iota in E; rewrite H2 in E; cbv beta iota in E; rewrite H2 in E; injection E as <- <- <-; split; [rewrite H1; eauto|]; split; [eauto|]; auto|].
  assert (Sl : match set_start_line (m_head m1) line with
          | Ret h => exists x y z q, a_start_line (AResponse v0 c0 p0) line = AResponse x (PInt z) y /\ exists u w, h_kind h = KResponse u w z q
          | _ => exists x y z, a_start_line (AResponse v0 c0 p0) line = AResponse x y z end).
  { rewrite H1. unfold set_start_line, a_start_line. rewrite Ek. destruct (split_max 2 SP (rstrip line)) as [|x [|y q]]; [eauto..|]. destruct (py_int 10 y) as [z|]; [|destruct q; eauto].
    destruct (bytes_eqb x (B "HTTP/1.0")); destruct q as [|q0 ?]; cbn; (eexists _, _, _, _; split; [reflexivity|]; eexists _, _; reflexivity). }
  destruct (set_start_line (m_head m1) line) as [h|e|].
  - destruct Sl as (x & y & z & q & Ea & u & w & Eh). rewrite Ea in E. eapply (sound_begun (set_mode (set_head m1 h) Headers) (AResponse x (PInt z) y) t1); [discriminate| |unfold a_base; exact E].
    split; [cbn; eauto|]. split; [eauto|]. right. right. split; [discriminate|]. exists x, y, u, w, z, q. split; [reflexivity|exact Eh].
  - destruct Sl as (x & y & z & Ea). rewrite Ea in E. injection E as <- <- <-. split; [rewrite H1; eauto|]. split; [eauto|]. auto.
  - injection E as <- <- <-. split; [rewrite H1; eauto|]. split; [eauto|]. auto.
Qed.
Lemma sound_does m a c o m' a' : response_sound m a -> a_does gz m a c = (o, m', a') -> response_sound m' a'.
Proof.
  intros J E. destruct c as [text|]; cbn [a_does] in E.
  - unfold a_feed in E. destruct (h_kind (m_head m)) as [k1 k2 k3 k4|k1 k2 k3 k4] eqn:K; [destruct J as ((? & ? & ? & ? & J) & _); congruence|].
    destruct (a_base gz m a text) as [[[t1|e|] m1] a1] eqn:E1; pose proof (sound_base _ _ _ _ _ _ J E1) as J1; try (injection E as <- <- <-; exact J1).
    destruct (h_kind (m_head m1)) as [? ? ? ?|rm v code ph] eqn:K1; [injection E as <- <- <-; exact J1|]. destruct (complete m1 && (code =? 100)%Z); [|injection E as <- <- <-; exact J1].
    eapply sound_base; [|exact E]. split; [cbn; eauto|]. split; [unfold response_attrs; eauto|]. left. reflexivity.
  - injection E as <- <- <-. destruct J as (Kr & As & J). destruct (close_parts m) as (C1 & C2 & C3 & C4 & C5 & C6). split; [rewrite C3; exact Kr|]. split; [exact As|]. destruct J as [J|[J|(Hm & J)]]; [auto..|].
    right. right. rewrite C3. auto.
Qed.
Lemma sound_method rm m a : response_sound m a -> response_sound (msg_method rm m) a.
Proof.
  intros ((r & v & c & p & Kr) & As & J). split; [cbn [msg_method m_head]; unfold with_method; rewrite Kr; cbn; eauto|]. split; [exact As|]. cbn [msg_method m_mode m_head].
  destruct J as [J|[J|(Hm & v1 & p1 & r' & v' & z & p' & E1 & E2)]]; [auto..|]. right. right. split; [exact Hm|]. exists v1, p1, rm, v', z, p'. split; [exact E1|]. unfold with_method. rewrite E2. reflexivity.
Qed.
Lemma sound_run events : forall b log b', b_run gz b events = (log, b') -> response_sound (b_resp b) (b_resp_attrs b) -> response_sound (b_resp b') (b_resp_attrs b').
Proof.
  induction events as [|[s a|w n] events IH]; intros b log b' E J; cbn [b_run] in E; [injection E as _ <-; exact J| |destruct (b_run gz b events) as [l b1] eqn:E1; injection E as _ <-; exact (IH _ _ _ E1 J)].
  destruct (b_call gz b s a) as [o b1] eqn:Ec. assert (J1 : response_sound (b_resp b1) (b_resp_attrs b1)).
  { destruct s; cbn [b_call] in Ec.
    - destruct (a_does gz (b_req b) (b_req_attrs b) a) as [[o1 m1] t1]. injection Ec as _ <-. exact J.
    - destruct (a_does gz _ (b_resp_attrs b) a) as [[o1 m1] t1] eqn:Ed. injection Ec as _ <-. exact (sound_does _ _ _ _ _ _ (sound_method _ _ _ J) Ed). }
  destruct (b_run gz b1 events) as [l b2] eqn:E1. destruct o; injection E as _ <-; [exact (IH _ _ _ E1 J1)..|exact J1].
Qed.
Lemma sound_new ign1 ign2 : response_sound (b_resp (new_both ign1 ign2)) (b_resp_attrs (new_both ign1 ign2)).
Proof. split; [cbn; eauto|]. split; [cbn; unfold response_attrs; eauto|]. left. reflexivity. Qed.

(** ** The theorems *)
(** At any time, whatever has been fed to either message in whatever order and whatever has raised: the request, the
    response and its interim responses say of url, scheme, method, host and port what the request's attributes are then -
    and these are those of a request that was fed alone (C90 says which). *)
Theorem C93_response_says_what_the_request_says : forall ign1 ign2 events log b' i w n,
  b_run gz (new_both ign1 ign2) events = (log, b') -> i < List.length log -> nth_error events i = Some (Ask w n) -> n <> NCode -> 
  let now := snd (b_run gz (new_both ign1 ign2) (firstn i events)) in
  exists outs m a x, a_run gz (parser_for None ign1) (attrs_for None) (request_calls (firstn i events)) = (outs, m, a) /\ ~ In Diverge outs /\ said_by a n x /\
    nth_error log i = Some (Says (if there now w then Ret x else Raise EIndexError)).
Proof.
  intros ign1 ign2 events log b' i w n E Hi N Hn now. destruct (before_event events _ _ _ _ E Hi) as (b1 & outs & S0 & R & Nd & A).
  destruct (request_shape _ _ _ _ _ R Nd) as (me & t & v & h & p & s & Es). destruct (request_answer me t v h p s n Hn) as (x & X1 & X2). rewrite <- Es in X1, X2.
  exists outs, (b_req b1), (b_req_attrs b1), x. split; [exact R|]. split; [exact Nd|]. split; [exact X2|]. unfold now. rewrite S0, (A w n N), <- X1.
  destruct w as [| |j]; cbn [there ask]; [reflexivity|destruct n; try reflexivity; contradiction|]. destruct (Nat.ltb_spec j (List.length (m_interim (b_resp b1)))) as [L|L].
  - apply nth_error_Some in L. destruct (nth_error (m_interim (b_resp b1)) j); [|contradiction]. destruct n; try reflexivity; contradiction.
  - apply nth_error_None in L. rewrite L. reflexivity.
Qed.
(** there is only one such answer *)
Theorem C93_one_answer : forall a n x y, said_by a n x -> said_by a n y -> x = y.
Proof. intros a n x y H. destruct H; intro K; inversion K; subst; try reflexivity; contradiction. Qed.
(** An interim response that is there has code 100, a request has no code; the response's is the one its parser decides
    by (Http.v) as soon as its head is read. *)
Theorem C93_codes : forall ign1 ign2 events log b', b_run gz (new_both ign1 ign2) events = (log, b') ->
  (forall j, ask b' (AnInterim j) NCode = if Nat.ltb j (List.length (m_interim (b_resp b'))) then Ret (PInt 100) else Raise EIndexError) /\ ask b' TheRequest NCode = Raise EAttributeError /\
  (exists version code phrase, b_resp_attrs b' = AResponse version code phrase /\ ask b' TheResponse NCode = Ret code) /\
  (headers_complete (b_resp b') = true -> exists z, status (b_resp b') = Some z /\ ask b' TheResponse NCode = Ret (PInt z)).
Proof.
  intros ign1 ign2 events log b' E. split; [|split; [|split]].
  - intro j. cbn [ask]. destruct (C93_asking_changes_nothing events _ _ _ E) as (log' & C & _). apply run_continues in C; [|constructor]. cbn [c_resp] in C.
    destruct (nth_error (m_interim (b_resp b')) j) as [h|] eqn:Nj.
    + assert (L : j < List.length (m_interim (b_resp b'))) by (apply nth_error_Some; congruence). apply Nat.ltb_lt in L. rewrite L. rewrite Forall_forall in C. destruct (C h (nth_error_In _ _ Nj)) as (rm & v & p & ->). reflexivity.
    + apply nth_error_None in Nj. assert (L : Nat.ltb j (List.length (m_interim (b_resp b'))) = false) by (apply Nat.ltb_ge; exact Nj). rewrite L. reflexivity.
  - cbn [ask]. destruct (b_req_attrs b'); reflexivity.
  - destruct (sound_run _ _ _ _ E (sound_new _ _)) as (_ & (v & c & p & Ea) & _). exists v, c, p. split; [exact Ea|]. cbn [ask ask_response]. rewrite Ea. reflexivity.
  - intro Hc. destruct (sound_run _ _ _ _ E (sound_new _ _)) as (_ & _ & [J|[J|(_ & v & p & rm & v' & z & p' & Ea & Ek)]]); try (unfold headers_complete in Hc; rewrite J in Hc; discriminate).
    exists z. unfold status. rewrite Ek. split; [reflexivity|]. cbn [ask ask_response]. rewrite Ea. reflexivity.
Qed.
End Gz.

(** ** concrete cases *)
(** an interim response before the final one, the request arriving in pieces: the response tells the request's attributes
    of the moment, also the ones of a half-read head, and the interim one changes its answer with it *)
Example C93_interim_case : exists b', b_run no_gz (new_both [] [])
    [Ask TheResponse NUrl; Call Req (Feed (B "HEAD http://h.example:81/a HT")); Ask TheResponse NMethod; Call Req (Feed (B "TP/1.1" ++ CRLF)); Ask TheResponse NUrl; Ask TheResponse NCode;
     Call Resp (Feed (B "HTTP/1.1 100 Continue" ++ CRLF ++ CRLF ++ B "HTTP/1.1 2")); Ask TheResponse NCode; Ask (AnInterim 0) NCode; Ask (AnInterim 0) NHost; Ask (AnInterim 1) NHost;
     Call Req (Feed (B "Host: g.example" ++ CRLF ++ CRLF)); Ask (AnInterim 0) NHost; Call Resp (Feed (B "00 OK" ++ CRLF ++ CRLF)); Ask TheResponse NCode; Ask TheRequest NCode; Ask TheResponse NPort] =
  ([Says (Ret (PText (B "http://"))); Done (Ret []); Says (Ret (PText [])); Done (Ret []); Says (Ret (PText (B "b'http'://b'h.example':81b'/a'"))); Says (Ret (PInt 0));
    Done (Ret []); Says (Ret (PInt 0)); Says (Ret (PInt 100)); Says (Ret (PBytes (B "h.example"))); Says (Raise EIndexError);
    Done (Ret []); Says (Ret (PBytes (B "g.example"))); Done (Ret []); Says (Ret (PInt 200)); Says (Raise EAttributeError); Says (Ret (PInt 81))], b') /\ complete (b_resp b') = true.
Proof. eexists. split; [vm_compute; reflexivity|reflexivity]. Qed.
(** a call that raised leaves its marks on what the response says *)
Example C93_raise_case : exists b', b_run no_gz (new_both [] []) [Call Req (Feed (B "connect a.example HTTP/1.1" ++ CRLF)); Ask TheResponse NMethod; Ask TheResponse NHost] =
  ([Done (Raise EValueError); Says (Ret (PBytes (B "connect"))); Says (Ret (PText []))], b').
Proof. eexists. vm_compute. reflexivity. Qed.
