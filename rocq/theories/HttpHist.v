(** Histories of feed calls: what every reachable parser satisfies. *)
From Verif Require Import RegexFacts.
From Verif Require Export HttpShift.
From Coq Require Import String List Lia ZArith.
Open Scope list_scope.

(** the header announces a length and a coding that ends in "gzip" *)
Definition gzip_with_length (h : hdr) : Prop :=
  h_mode h = MLength /\ exists e, h_encoding h = Some e /\ endswith (B "gzip") e = true.
Definition inv (m : msg) : Prop := hinv m /\ (zipped m -> gzip_with_length (m_head m)).
Lemma fresh_inv m kind ign : fresh_at m kind ign -> inv m.
Proof. intro H. split; [eapply fresh_hinv, H|]. destruct H as (_ & _ & _ & H & _). intros (z & r & X). congruence. Qed.

Definition flag_ok (m : msg) : Prop := exists c s r, m_reader m = Some (RChunk c s r) /\ (c = CStart \/ s = false).
Lemma pass_flag m text m' t : bwf m -> flag_ok m -> text <> [] -> chunk_pass m text = Ret (Some (m', t)) -> flag_ok m'.
Proof.
  intros Hb (c & s & r & Hr & Hf) Ht E. destruct (match c with CStart => true | _ => false end) eqn:Ec.
  - destruct c; try discriminate. rewrite (pass_start _ _ _ _ Hr), chunk_start_eq in E by exact Hb. destruct (split_once LF text) as [[a b]|].
    + destruct (chunk_size _) as [n|]; [|destruct s; discriminate]. cbn [bind] in E. apply flag_keeps in E.
      * destruct E as (c & r' & E). exists c, false, r'. auto.
      * eexists _, _. reflexivity.
      * apply bwf_creader, bwf_chunks, bwf_took.
    + cbn [bind] in E. rewrite rest_nil in E. injection E as <- <-. eexists _, _, _. split; [reflexivity|auto].
  - assert (s = false) by (destruct Hf as [-> | ->]; [discriminate|reflexivity]). subst s.
    rewrite (pass_other _ _ _ _ _ Hr) in E by (intros ->; discriminate). apply flag_keeps in E; [|eauto|exact Hb]. destruct E as (c' & r' & E). exists c', false, r'. auto.
Qed.
Lemma chunk_feed_flag f : forall m text m' t, bwf m -> flag_ok m -> chunk_feed f m text = Ret (Some (m', t)) -> bwf m' /\ flag_ok m'.
Proof.
  induction f as [|f IH]; intros m text m' t Hb Hf H; [discriminate|]. cbn [chunk_feed] in H. destruct text as [|x l] eqn:Et; [injection H as <- <-; auto|]. rewrite <- Et in *.
  assert (Ht : text <> []) by (rewrite Et; discriminate).
  destruct (chunk_pass m text) as [[[m1 t1]|]| |] eqn:E; try discriminate. cbn [bind] in H.
  assert (Hc : is_chunk m) by (destruct Hf as (c & s & r & Hr & _); exists c, s, r; exact Hr).
  destruct (pass_shrinks _ _ _ _ Hb Hc Ht E) as (Hb1 & _ & _). pose proof (pass_flag _ _ _ _ Hb Hf Ht E) as Hf1.
  pose proof Hf1 as (c & s & r & Hr & Hx). rewrite Hr in H. destruct c; try (apply (IH _ _ _ _ Hb1 Hf1 H)).
  injection H as <- <-. split; [apply bwf_mode, Hb1|]. exists CEnd, s, r. auto.
Qed.
Lemma bwf_full m t : bwf (set_buf m t (List.length t)).
Proof. split; [cbn; lia|]. unfold pending. cbn. rewrite skipn_all. intros []. Qed.
Lemma feed_line_bwf m text l t m' : bwf m -> feed_line m text = (l, t, m') -> bwf m'.
Proof.
  intros Hb. rewrite feed_line_eq by exact Hb. destruct (split_once LF text) as [[a b]|] eqn:E; intro H; injection H as <- <- <-; [apply bwf_took|].
  apply bwf_pushed; [exact Hb|apply split_once_none, E].
Qed.
Lemma feed_headers_bwf f : forall m text m' t, bwf m -> feed_headers f m text = Ret (m', t) -> bwf m'.
Proof.
  induction f as [|f IH]; intros m text m' t Hb H; [discriminate|]. cbn [feed_headers] in H. destruct text as [|x l]; [injection H as <- <-; exact Hb|].
  destruct (feed_line m (x :: l)) as [[[ln|] t1] m1] eqn:E; apply feed_line_bwf in E; try exact Hb.
  - destruct (add_header_line (m_head m1) ln) as [h| |]; try discriminate. cbn [bind] in H. destruct (in_list ln NEWLINES); [injection H as <- <-; apply bwf_mode, bwf_head, E|].
    apply IH in H; [exact H|apply bwf_head, E].
  - apply IH in H; [exact H|exact E].
Qed.
Section G.
Variable gz : bytes -> outcome bytes.
Lemma begin_body_inv m text m' : bwf m -> m_reader m = None -> m_mode m = Body -> begin_body gz m text = Ret m' -> inv m'.
Proof.
  intros Hb Hr Hm H. pose proof (begin_body_binv _ _ _ _ Hr Hm H) as [B1 B2]. pose proof H as Hh. apply begin_body_head in Hh.
  unfold begin_body in H. destruct (has_body (m_head m)) eqn:Eh; cbn [negb] in H.
  2:{ injection H as <-. split; [|intros (z & r & X); cbn in X; congruence]. split; [apply bwf_mode, Hb|]. split; [exact B1|]. split; [cbn; intros c s r X; congruence|exact B2]. }
  destruct (body_is_chunked (m_head m)) eqn:Ec.
  { injection H as <-. split; [|intros (z & r & X); discriminate]. split; [apply bwf_creader, Hb|]. split; [exact B1|]. split; [|exact B2].
    intros c s r X. cbn in X. injection X as <- <- <-. split; [|auto]. unfold body_is_chunked in Ec. cbn. destruct (h_mode (m_head m)); try discriminate. reflexivity. }
  destruct (body_length (m_head m)) as [n|] eqn:El.
  - match type of H with bind ?x _ = _ => destruct x as [rd| |] eqn:Ex end; try discriminate. cbn [bind] in H.
    assert (R : m_reader m' = Some rd /\ bwf m') by (injection H as <-; destruct (_ =? 0)%Z; (split; [reflexivity|]); try apply bwf_mode; apply bwf_chunks, bwf_reader, Hb).
    destruct R as [R Rb]. split.
    + split; [exact Rb|]. split; [exact B1|]. split; [|exact B2]. rewrite R. intros c s r X. injection X as ->.
      destruct (match h_encoding (m_head m) with Some e => endswith (B "gzip") e | None => false end); [|discriminate].
      unfold zip_reader in Ex. destruct (gz _) as [d|e|]; try discriminate. destruct e; discriminate.
    + intros (z & r & X). rewrite R in X. injection X as ->. rewrite Hh. split.
      * unfold body_length in El. destruct (h_mode (m_head m)); try discriminate. reflexivity.
      * destruct (h_encoding (m_head m)) as [e|]; [|discriminate]. exists e. split; [reflexivity|]. destruct (endswith (B "gzip") e); [reflexivity|discriminate].
  - injection H as <-. split; [|intros (z & r & X); discriminate]. split; [apply bwf_reader, bwf_chunks, Hb|]. split; [exact B1|]. split; [discriminate|exact B2].
Qed.
Lemma feed_body_inv m text m' t : m_mode m = Body -> inv m -> feed_body m text = Ret (m', t) -> inv m'.
Proof.
  intros Hm [Hi Hz] H. pose proof Hi as (Hb & H1 & H2 & H3). destruct (feed_body_binv m text m' t Hm (hinv_binv _ Hi) H) as ([B1 B2] & _ & Bm).
  unfold feed_body in H.
  assert (Raw : forall m1, m_reader m1 = None -> raw_body m1 text = Ret (m', t) -> inv m').
  { intros m1 E1. unfold raw_body. destruct (m_chunks m1) as [|[o n] [|q l]]; try discriminate. intro X. injection X as <- <-.
    split; [|intros (z & r & X); cbn in X; congruence]. split; [apply bwf_chunks, bwf_full|]. split; [exact B1|]. split; [intros c s r X; cbn in X; congruence|exact B2]. }
  destruct (m_reader m) as [[c s r|r|z r]|] eqn:Er.
  - destruct (chunk_feed _ m text) as [[[m1 t1]|]| |] eqn:E; try discriminate; cbn [bind] in H; [|apply Raw in H; [exact H|reflexivity]].
    injection H as <- <-. destruct (H2 _ _ _ eq_refl) as [K1 K2].
    assert (Hf : flag_ok m) by (exists c, s, r; auto). destruct (chunk_feed_flag _ _ _ _ _ Hb Hf E) as (Hb1 & c1 & s1 & r1 & E1 & E2).
    apply chunk_feed_kind in E as (_ & K3 & _); [|eexists _, _, _; exact Er].
    split; [|intros (z & r0 & X); congruence]. split; [exact Hb1|]. split; [exact B1|]. split; [|exact B2].
    intros c' s' r' X. rewrite E1 in X. injection X as <- <- <-. split; [congruence|exact E2].
  - injection H as H. unfold length_feed in H. destruct (if (0 <? r)%Z then _ else _) as [[r1 t1] m1] eqn:E. injection H as <- <-.
    assert (K : bwf m1) by (destruct (0 <? r)%Z; injection E as <- <- <-; [apply bwf_full|exact Hb]).
    assert (Rr : forall x, x = (if (r1 <=? 0)%Z then set_mode (set_reader m1 (Some (RLength r1))) End else set_reader m1 (Some (RLength r1))) -> m_reader x = Some (RLength r1) /\ bwf x).
    { intros x ->. destruct (r1 <=? 0)%Z; (split; [reflexivity|]); try apply bwf_mode; apply bwf_reader, K. }
    destruct (Rr _ eq_refl) as [R1 R2]. split; [|intros (z0 & r0 & X); congruence]. split; [exact R2|]. split; [exact B1|]. split; [|exact B2]. intros c s r0 X. congruence.
  - injection H as H. unfold zip_feed in H. destruct (if (0 <? r)%Z then _ else _) as [[r1 t1] m1] eqn:E. injection H as <- <-.
    assert (K : bwf m1 /\ m_head m1 = m_head m) by (destruct (0 <? r)%Z; injection E as <- <- <-; (split; [|reflexivity]); [apply bwf_full|exact Hb]). destruct K as [K Kh].
    assert (Rr : forall x, x = (if (r1 <=? 0)%Z then set_mode (set_reader m1 (Some (RZip z r1))) End else set_reader m1 (Some (RZip z r1))) -> m_reader x = Some (RZip z r1) /\ bwf x /\ m_head x = m_head m).
    { intros x ->. destruct (r1 <=? 0)%Z; (split; [reflexivity|]); (split; [|exact Kh]); try apply bwf_mode; apply bwf_reader, K. }
    destruct (Rr _ eq_refl) as (R1 & R2 & R3). split; [|intros _; rewrite R3; apply Hz; eexists _, _; exact Er].
    split; [exact R2|]. split; [exact B1|]. split; [|exact B2]. intros c s r0 X. congruence.
  - apply Raw in H; [exact H|exact Er].
Qed.
Theorem base_feed_inv m text m' t : inv m -> base_feed gz m text = Ret (m', t) -> inv m'.
Proof.
  intros Hi H. unfold base_feed in H.
  match type of H with bind ?x _ = _ => destruct x as [[m1 t1]| |] eqn:E1 end; try discriminate. cbn [bind] in H.
  assert (Hn : forall m1, bwf m1 -> m_reader m1 = None -> inv m1).
  { intros m0 Hb Hr. split; [|intros (z & r & X); congruence]. split; [exact Hb|]. split; [auto|]. split; [intros c s r X; congruence|]. intro X; contradiction. }
  assert (H1 : inv m1).
  { destruct (m_mode m) eqn:Em; try (injection E1 as <- <-; auto; fail). destruct (empty_text text); [injection E1 as <- <-; auto|].
    pose proof (proj1 (proj2 (proj1 Hi)) (or_introl Em)) as E. apply Hn; [|apply feed_start_reader in E1; congruence].
    unfold feed_start in E1. destruct (feed_line m text) as [[[ln|] t2] m2] eqn:El; apply feed_line_bwf in El; try apply Hi.
    - destruct (in_list ln NEWLINES); [injection E1 as <- <-; exact El|]. destruct (set_start_line _ _); try discriminate. injection E1 as <- <-. apply bwf_mode, bwf_head, El.
    - injection E1 as <- <-; exact El. }
  clear E1. match type of H with bind ?x _ = _ => destruct x as [[m2 t2]| |] eqn:E2 end; try discriminate. cbn [bind] in H.
  assert (H2 : inv m2).
  { destruct (m_mode m1) eqn:Em; try (injection E2 as <- <-; auto; fail). destruct (empty_text t1); [injection E2 as <- <-; auto|].
    pose proof (proj1 (proj2 (proj1 H1)) (or_intror Em)) as E.
    destruct (feed_headers _ m1 t1) as [[m3 t3]| |] eqn:E3; try discriminate. cbn [bind] in E2. pose proof (feed_headers_bwf _ _ _ _ _ (proj1 (proj1 H1)) E3) as Hb3. apply feed_headers_reader in E3. rewrite E in E3.
    destruct (m_mode m3) eqn:Em3; try (injection E2 as <- <-; apply Hn; assumption).
    destruct (begin_body gz m3 t3) as [m4| |] eqn:E4; try discriminate. cbn [bind] in E2. injection E2 as <- <-. exact (begin_body_inv m3 t3 _ Hb3 E3 Em3 E4). }
  clear E2. destruct (m_mode m2) eqn:Em; try (injection H as <- <-; auto; fail).
  destruct (empty_text t2); [injection H as <- <-; auto|]. apply feed_body_inv in H; auto.
Qed.
Theorem feed_inv m text m' t : inv m -> feed gz m text = Ret (m', t) -> inv m'.
Proof.
  intros Hi. rewrite feed_resp. destruct (base_feed gz m text) as [[m1 t1]| |] eqn:E; try discriminate. cbn [bind].
  apply base_feed_inv in E; [|exact Hi]. unfold resp. cbn [fst snd]. destruct (continue_dec m1) as [C|C].
  - intro H. apply base_feed_inv in H; [exact H|]. destruct (hinv_after _ (proj1 (proj1 E)) C) as [A R]. split; [exact A|]. intros (z & r & X). congruence.
  - intro H. injection H as <- <-. exact E.
Qed.
(** a sequence of feed calls: what was fed and what was returned each time *)
Inductive session : msg -> list (bytes * bytes) -> msg -> Prop :=
| session_nil m : session m [] m
| session_call m text m1 r l m2 : feed gz m text = Ret (m1, r) -> session m1 l m2 -> session m ((text, r) :: l) m2.
Lemma session_inv m l m' : session m l m' -> inv m -> inv m'.
Proof. intro S. induction S as [m|m text m1 r l m2 E S IH]; intro H; [exact H|]. apply IH. eapply feed_inv; [exact H|exact E]. Qed.
(** a parser some sequence of calls leads to *)
Definition reached (m : msg) : Prop := exists kind ign l, session (parser_for kind ign) l m.
Lemma reached_inv m : reached m -> inv m.
Proof. intros (kind & ign & l & S). eapply session_inv; [exact S|]. eapply fresh_inv, parser_fresh. Qed.
Lemma reached_fresh kind ign : reached (parser_for kind ign).
Proof. exists kind, ign, []. constructor. Qed.
Lemma session_app m l m1 l' m2 : session m l m1 -> session m1 l' m2 -> session m (l ++ l') m2.
Proof. intro S. induction S; intro S2; [exact S2|]. cbn [app]. econstructor; eauto. Qed.
Lemma reached_session m l m' : reached m -> session m l m' -> reached m'.
Proof. intros (kind & ign & l0 & S) S2. exists kind, ign, (l0 ++ l). eapply session_app; eassumption. Qed.

(** ** Bytes *)
Definition grows (m m' : msg) : Prop := exists u, m_buf m' = m_buf m ++ u.
Lemma grows_refl m m' : m_buf m' = m_buf m -> grows m m'.
Proof. intro H. exists []. rewrite app_nil_r. exact H. Qed.
Lemma grows_trans a b c : grows a b -> grows b c -> grows a c.
Proof. intros [u U] [v V]. exists (u ++ v). rewrite V, U, app_assoc. reflexivity. Qed.
Lemma feed_line_grows m text l t m' : bwf m -> feed_line m text = (l, t, m') -> grows m m'.
Proof.
  intros Hb. rewrite feed_line_eq by exact Hb. destruct (split_once LF text) as [[a b]|]; intro H; injection H as <- <- <-; eexists; reflexivity.
Qed.
Lemma feed_headers_grows f : forall m text m' t, bwf m -> feed_headers f m text = Ret (m', t) -> grows m m'.
Proof.
  induction f as [|f IH]; intros m text m' t Hb H; [discriminate|]. cbn [feed_headers] in H. destruct text as [|x l]; [injection H as <- <-; apply grows_refl; reflexivity|].
  destruct (feed_line m (x :: l)) as [[[ln|] t1] m1] eqn:E; pose proof (feed_line_bwf _ _ _ _ _ Hb E) as Hb1; apply feed_line_grows in E; try exact Hb.
  - destruct (add_header_line (m_head m1) ln) as [h| |]; try discriminate. cbn [bind] in H. destruct (in_list ln NEWLINES); [injection H as <- <-; exact E|].
    apply IH in H; [eapply grows_trans; [exact E|exact H]|apply bwf_head, Hb1].
  - apply IH in H; [eapply grows_trans; [exact E|exact H]|exact Hb1].
Qed.
Lemma rest_grows m text m' t : bwf m -> rest_pass m text = Ret (Some (m', t)) -> grows m m'.
Proof.
  intros Hb H. unfold rest_pass in H.
  set (y := match m_reader m with Some (RChunk CChunk st r) => _ | _ => _ end) in H. destruct y as [m2 t2] eqn:Ey.
  assert (Y : grows m m2 /\ bwf m2).
  { unfold y in Ey. destruct (m_reader m) as [[[] s r|r|z r]|]; try (injection Ey as <- <-; split; [apply grows_refl; reflexivity|exact Hb]).
    destruct (empty_text text); [injection Ey as <- <-; split; [apply grows_refl; reflexivity|exact Hb]|].
    unfold chunk_chunk in Ey. destruct (if (0 <? r)%Z then _ else _) as [[r1 t1] m1] eqn:E.
    assert (M1 : grows m m1 /\ bwf m1) by (destruct (0 <? r)%Z; injection E as <- <- <-; [split; [eexists; reflexivity|apply bwf_full]|split; [apply grows_refl; reflexivity|exact Hb]]). destruct M1 as [M1 M2].
    destruct (r1 =? 0)%Z; [|injection Ey as <- <-; split; [exact M1|apply bwf_creader, M2]].
    destruct (feed_line m1 t1) as [[[ln|] t3] m3] eqn:E3; pose proof (feed_line_bwf _ _ _ _ _ M2 E3) as Hb3; apply feed_line_grows in E3; try exact M2;
      injection Ey as <- <-; (split; [eapply grows_trans; [exact M1|exact E3]|apply bwf_creader, Hb3]). }
  destruct Y as [Y1 Y2]. clear Ey y. destruct (m_reader m2) as [[[] s r|r|z r]|]; try (injection H as <- <-; exact Y1).
  destruct (empty_text t2); [injection H as <- <-; exact Y1|]. unfold chunk_trailer in H.
  destruct (feed_line m2 t2) as [[[ln|] t3] m3] eqn:E3; apply feed_line_grows in E3; try exact Y2.
  - destruct (add_trailer_line (m_head m3) ln); try discriminate. cbn [bind] in H. injection H as <- <-. eapply grows_trans; [exact Y1|exact E3].
  - cbn [bind] in H. injection H as <- <-. eapply grows_trans; [exact Y1|exact E3].
Qed.
Lemma pass_grows m text m' t : bwf m -> is_chunk m -> chunk_pass m text = Ret (Some (m', t)) -> grows m m'.
Proof.
  intros Hb (c & s & r & Hr) H. destruct (match c with CStart => true | _ => false end) eqn:Ec.
  - destruct c; try discriminate. rewrite (pass_start _ _ _ _ Hr), chunk_start_eq in H by exact Hb. destruct (split_once LF text) as [[a b]|] eqn:E.
    + destruct (chunk_size _) as [n|]; [|destruct s; discriminate]. cbn [bind] in H. apply rest_grows in H; [|apply bwf_creader, bwf_chunks, bwf_took].
      eapply grows_trans; [|exact H]. eexists. reflexivity.
    + cbn [bind] in H. rewrite rest_nil in H. injection H as <- <-. eexists. reflexivity.
  - rewrite (pass_other _ _ _ _ _ Hr) in H by (intros ->; discriminate). eapply rest_grows; [exact Hb|exact H].
Qed.
Lemma chunk_feed_grows f : forall m text m' t, bwf m -> flag_ok m -> chunk_feed f m text = Ret (Some (m', t)) -> grows m m'.
Proof.
  induction f as [|f IH]; intros m text m' t Hb Hf H; [discriminate|]. cbn [chunk_feed] in H. destruct text as [|x l] eqn:Et; [injection H as <- <-; apply grows_refl; reflexivity|]. rewrite <- Et in *.
  assert (Ht : text <> []) by (rewrite Et; discriminate).
  destruct (chunk_pass m text) as [[[m1 t1]|]| |] eqn:E; try discriminate. cbn [bind] in H.
  assert (Hc : is_chunk m) by (destruct Hf as (c & s & r & Hr & _); exists c, s, r; exact Hr).
  destruct (pass_shrinks _ _ _ _ Hb Hc Ht E) as (Hb1 & _ & _). pose proof (pass_flag _ _ _ _ Hb Hf Ht E) as Hf1. apply pass_grows in E; [|exact Hb|exact Hc].
  pose proof Hf1 as (c & s & r & Hr & Hx). rewrite Hr in H. destruct c; try (apply (IH _ _ _ _ Hb1 Hf1) in H; eapply grows_trans; [exact E|exact H]).
  injection H as <- <-. exact E.
Qed.
Theorem base_feed_grows m text m' t : inv m -> base_feed gz m text = Ret (m', t) -> grows m m'.
Proof.
  intros Hi H. pose proof H as H0. unfold base_feed in H.
  match type of H with bind ?x _ = _ => destruct x as [[m1 t1]| |] eqn:E1 end; try discriminate. cbn [bind] in H.
  assert (Rf : forall x, grows x x) by (intro x; apply grows_refl; reflexivity).
  assert (Hn : forall m1, bwf m1 -> m_reader m1 = None -> inv m1).
  { intros m0 Hb Hr. split; [|intros (z & r & X); congruence]. split; [exact Hb|]. split; [auto|]. split; [intros c s r X; congruence|]. intro X; contradiction. }
  assert (H1 : inv m1 /\ grows m m1).
  { destruct (m_mode m) eqn:Em; try (injection E1 as <- <-; auto; fail). destruct (empty_text text); [injection E1 as <- <-; auto|].
    pose proof (proj1 (proj2 (proj1 Hi)) (or_introl Em)) as E. pose proof (feed_start_reader _ _ _ _ E1) as Er.
    unfold feed_start in E1. destruct (feed_line m text) as [[[ln|] t2] m2] eqn:El; pose proof (feed_line_bwf _ _ _ _ _ (proj1 (proj1 Hi)) El) as Hb2; apply feed_line_grows in El; try apply Hi.
    - destruct (in_list ln NEWLINES); [injection E1 as <- <-; split; [apply Hn; congruence || exact Hb2|exact El]|]. destruct (set_start_line _ _); try discriminate. injection E1 as <- <-. split; [apply Hn; [apply bwf_mode, bwf_head, Hb2|congruence]|exact El].
    - injection E1 as <- <-; split; [apply Hn; congruence || exact Hb2|exact El]. }
  destruct H1 as [H1 G1]. clear E1. match type of H with bind ?x _ = _ => destruct x as [[m2 t2]| |] eqn:E2 end; try discriminate. cbn [bind] in H.
  assert (H2 : inv m2 /\ grows m m2).
  { destruct (m_mode m1) eqn:Em; try (injection E2 as <- <-; auto; fail). destruct (empty_text t1); [injection E2 as <- <-; auto|].
    pose proof (proj1 (proj2 (proj1 H1)) (or_intror Em)) as E.
    destruct (feed_headers _ m1 t1) as [[m3 t3]| |] eqn:E3; try discriminate. cbn [bind] in E2. pose proof (feed_headers_bwf _ _ _ _ _ (proj1 (proj1 H1)) E3) as Hb3.
    pose proof (feed_headers_grows _ _ _ _ _ (proj1 (proj1 H1)) E3) as G3. apply feed_headers_reader in E3. rewrite E in E3. assert (G : grows m m3) by (eapply grows_trans; [exact G1|exact G3]).
    destruct (m_mode m3) eqn:Em3; try (injection E2 as <- <-; split; [apply Hn; assumption|exact G]).
    destruct (begin_body gz m3 t3) as [m4| |] eqn:E4; try discriminate. cbn [bind] in E2. injection E2 as <- <-. split; [exact (begin_body_inv m3 t3 _ Hb3 E3 Em3 E4)|].
    eapply grows_trans; [exact G|]. apply grows_refl. apply (begin_body_buf _ _ _ _ E4). }
  destruct H2 as [H2 G2]. clear E2. destruct (m_mode m2) eqn:Em; try (injection H as <- <-; auto; fail).
  destruct (empty_text t2); [injection H as <- <-; auto|]. eapply grows_trans; [exact G2|]. clear -H H2 Em.
  pose proof H2 as [Hi _]. pose proof Hi as (Hb & K1 & K2 & K3). unfold feed_body in H.
  assert (Raw : forall m1, raw_body m1 t2 = Ret (m', t) -> grows m1 m').
  { intros m1. unfold raw_body. destruct (m_chunks m1) as [|[o n] [|q l]]; try discriminate. intro X. injection X as <- <-. eexists; reflexivity. }
  destruct (m_reader m2) as [[c s r|r|z r]|] eqn:Er.
  - destruct (chunk_feed _ m2 t2) as [[[m1 t1]|]| |] eqn:E; try discriminate; cbn [bind] in H; [|apply Raw in H; exact H].
    injection H as <- <-. eapply chunk_feed_grows; [exact Hb| |exact E]. exists c, s, r. split; [exact Er|]. apply (K2 _ _ _ eq_refl).
  - injection H as H. unfold length_feed in H. destruct (if (0 <? r)%Z then _ else _) as [[r1 t1] m1] eqn:E. injection H as <- <-.
    assert (G : grows m2 m1) by (destruct (0 <? r)%Z; injection E as <- <- <-; [eexists; reflexivity|apply grows_refl; reflexivity]). destruct (r1 <=? 0)%Z; exact G.
  - injection H as H. unfold zip_feed in H. destruct (if (0 <? r)%Z then _ else _) as [[r1 t1] m1] eqn:E. injection H as <- <-.
    assert (G : grows m2 m1) by (destruct (0 <? r)%Z; injection E as <- <- <-; [eexists; reflexivity|apply grows_refl; reflexivity]). destruct (r1 <=? 0)%Z; exact G.
  - apply Raw in H; exact H.
Qed.
Lemma after_inv m : bwf m -> continue_done m -> inv (after_continue m).
Proof. intros Hb C. destruct (hinv_after _ Hb C) as [A R]. split; [exact A|]. intros (z & r & X). congruence. Qed.
Lemma after_buf m : m_buf (after_continue m) = m_buf m.
Proof. unfold after_continue. destruct (h_kind (m_head m)); reflexivity. Qed.
Theorem feed_grows m text m' t : inv m -> feed gz m text = Ret (m', t) -> grows m m' /\ (zipped m -> zipped m').
Proof.
  intros Hi. rewrite feed_resp. destruct (base_feed gz m text) as [[m1 t1]| |] eqn:E; try discriminate. cbn [bind].
  pose proof (base_feed_inv _ _ _ _ Hi E) as Hi1. pose proof (base_feed_binv _ _ _ _ _ (hinv_binv _ (proj1 Hi)) E) as [_ Z1]. apply base_feed_grows in E; [|exact Hi]. unfold resp. cbn [fst snd]. destruct (continue_dec m1) as [C|C].
  - intro H. split.
    + apply base_feed_grows in H; [|apply after_inv; [apply Hi1|exact C]]. eapply grows_trans; [exact E|]. eapply grows_trans; [|exact H]. apply grows_refl, after_buf.
    + intro Z. apply Z1 in Z as (z & r & X). rewrite (continue_reader m1) in X by (try apply hinv_binv, Hi1; exact C). discriminate.
  - intro H. injection H as <- <-. auto.
Qed.
Theorem feed_bytes m text m' t : inv m -> feed gz m text = Ret (m', t) -> ~ zipped m' -> m_buf m' ++ t = m_buf m ++ text.
Proof.
  intros Hi H Hg. rewrite feed_resp in H. destruct (base_feed gz m text) as [[m1 t1]| |] eqn:E; try discriminate. cbn [bind] in H.
  pose proof (base_feed_inv _ _ _ _ Hi E) as [Hh1 Hz1]. unfold resp in H. cbn [fst snd] in H. destruct (continue_dec m1) as [C|C].
  - assert (Hr : m_reader m1 = None) by (apply continue_reader; [apply hinv_binv, Hh1|exact C]).
    apply base_feed_bytes in E; [|intros (z & r & X); congruence]. apply base_feed_bytes in H; [|auto].
    unfold after_continue in H. destruct C as [_ C]. unfold status in C. destruct (h_kind (m_head m1)); [discriminate|]. cbn in H. congruence.
  - injection H as <- <-. apply base_feed_bytes in E; [exact E|auto].
Qed.

(** ** Divergence *)
Lemma start_total h line : set_start_line h line <> Diverge.
Proof.
  unfold set_start_line. destruct (h_kind h).
  - destruct (split_max 2 SP (rstrip line)) as [|a [|b0 [|c [|d l]]]]; try discriminate. destruct (bytes_eqb _ _).
    + destruct (split_all COLON b0) as [|x [|y [|z q]]]; discriminate.
    + destruct (re_match url_rx b0) as [g|]; discriminate.
  - destruct (split_max 2 SP (rstrip line)) as [|a [|b0 l]]; try discriminate. destruct (py_int 10 b0); discriminate.
Qed.
Lemma note_header_ok h nv : note_header h nv <> Diverge.
Proof.
  unfold note_header. cbv zeta. destruct (in_list _ _); [discriminate|]. destruct (bytes_eqb _ _); [discriminate|].
  destruct (bytes_eqb _ _); [destruct (h_mode h); try discriminate; destruct (py_int _ _); discriminate|]. repeat (destruct (bytes_eqb _ _); [discriminate|]). discriminate.
Qed.
Lemma note_headers_ok l : forall h, note_headers h l <> Diverge.
Proof.
  induction l as [|nv l IH]; intro h; [discriminate|]. cbn [note_headers]. pose proof (note_header_ok h nv). destruct (note_header h nv); cbn [bind]; [apply IH|discriminate|contradiction].
Qed.
Lemma fold_ok l line : fold_last l line <> Diverge.
Proof. unfold fold_last. destruct (rev l) as [|[k v] t]; discriminate. Qed.
Lemma field_total line : split_field line <> Diverge.
Proof. unfold split_field. destruct (split_once COLON line) as [[a b]|]; discriminate. Qed.
Lemma header_line_ok h line : add_header_line h line <> Diverge.
Proof.
  unfold add_header_line. pose proof (fold_ok (h_headers h) line). pose proof (field_total line). destruct (is_folded line).
  - destruct (fold_last (h_headers h) line); cbn [bind]; congruence.
  - destruct (in_list line NEWLINES); [apply note_headers_ok|]. destruct (split_field line); cbn [bind]; congruence.
Qed.
Lemma trailer_line_ok h line : add_trailer_line h line <> Diverge.
Proof.
  unfold add_trailer_line. pose proof (fold_ok (h_trailers h) line). pose proof (field_total line). destruct (is_folded line).
  - destruct (fold_last (h_trailers h) line); cbn [bind]; congruence.
  - destruct (in_list line NEWLINES); [discriminate|]. destruct (split_field line); cbn [bind]; congruence.
Qed.
Hypothesis Hgz : gz_ok gz.
Lemma begin_total m text : begin_body gz m text <> Diverge.
Proof.
  unfold begin_body. destruct (negb _); [discriminate|]. destruct (body_is_chunked _); [discriminate|]. destruct (body_length _) as [n|]; [|discriminate].
  match goal with |- bind (if ?g then _ else _) _ <> _ => destruct g end; [|cbn [bind]; discriminate].
  unfold zip_reader. pose proof (Hgz (py_take n text)) as G. destruct (gz (py_take n text)) as [d|e|]; cbn [bind]; [discriminate| |contradiction].
  destruct e; discriminate.
Qed.
Lemma one_byte c (a b : bytes) : split_once LF [c] = Some (a, b) -> a = [] /\ b = [].
Proof. cbn. destruct (N.eqb c LF); intro H; [injection H as <- <-; auto|discriminate]. Qed.
Lemma base_diverge m c : inv m -> base_feed gz m [c] = Diverge -> m_mode m = Body /\ stuck m.
Proof.
  intros [Hi _] H. pose proof Hi as (Hb & H1 & H2 & H3). destruct (m_mode m) eqn:Em.
  - exfalso. rewrite BF_start in H by (try assumption; discriminate). destruct (split_once LF [c]) as [[a b]|] eqn:E; [|discriminate]. apply one_byte in E as [-> ->]. cbv zeta in H.
    destruct (in_list _ NEWLINES); [discriminate|]. match type of H with bind ?x _ = _ => pose proof (start_total (m_head m) (pending m ++ [] ++ [LF])); destruct x end; cbn [bind] in H; try contradiction; [|discriminate].
    rewrite BF_nil in H. discriminate.
  - exfalso. rewrite BF_headers in H by (try assumption; discriminate). destruct (split_once LF [c]) as [[a b]|] eqn:E; [|discriminate]. apply one_byte in E as [-> ->]. cbv zeta in H.
    match type of H with bind ?x _ = _ => pose proof (header_line_ok (m_head m) (pending m ++ [] ++ [LF])); destruct x as [h| |] end; cbn [bind] in H; try contradiction; [|discriminate].
    destruct (in_list _ NEWLINES); [|rewrite BF_nil in H; discriminate].
    match type of H with bind (begin_body gz ?M ?T) _ = _ => pose proof (begin_total M T); destruct (begin_body gz M T) as [m2| |] end; cbn [bind] in H; try contradiction; [|discriminate].
    rewrite BF_nil in H. discriminate.
  - split; [reflexivity|]. rewrite BF_body in H by (try assumption; discriminate). unfold feed_body in H.
    assert (Raw : forall x t, raw_body x t <> Diverge) by (intros x t; unfold raw_body; destruct (m_chunks x) as [|[o n] [|q l]]; discriminate).
    destruct (m_reader m) as [[k s r|r|z r]|] eqn:Er; [|discriminate|discriminate|exfalso; exact (Raw _ _ H)].
    fold (CF m [c]) in H. destruct (CF m [c]) as [[[m' t']|]| |] eqn:E; cbn [bind] in H; [discriminate|exfalso; exact (Raw _ _ H)|discriminate|].
    assert (Hc : is_chunk m) by (eexists _, _, _; exact Er).
    rewrite CF_pass in E by (try assumption; discriminate).
    destruct (chunk_pass m [c]) as [[[m' t']|]| |] eqn:Ep; cbn [bind] in E; try discriminate.
    + destruct (pass_shrinks m [c] m' t' Hb Hc ltac:(discriminate) Ep) as (_ & _ & [Hl|(-> & -> & [Hs|Hs])]); [|exact Hs|].
      * destruct t'; [|cbn in Hl; lia]. destruct (m_reader m') as [[[] s' r'|r'|z r']|]; try discriminate; rewrite CF_nil in E; discriminate.
      * destruct Hs as (s' & r' & X). rewrite X in E. discriminate.
    + exfalso. destruct (match k with CStart => true | _ => false end) eqn:Ek.
      * destruct k; try discriminate. rewrite (pass_start _ _ _ _ Er), chunk_start_eq in Ep by exact Hb. destruct (split_once LF [c]) as [[a b]|] eqn:El; [|cbn [bind] in Ep; rewrite rest_nil in Ep; discriminate].
        apply one_byte in El as [-> ->]. destruct (chunk_size _) as [n|]; [|destruct s; discriminate]. cbn [bind] in Ep. rewrite rest_nil in Ep. discriminate.
      * rewrite (pass_other _ _ _ _ _ Er) in Ep by (intros ->; discriminate). unfold rest_pass in Ep. rewrite Er in Ep.
        assert (T : forall m2 t2, match m_reader m2 with Some (RChunk CTrailer st r) => if empty_text t2 then Ret (Some (m2, t2)) else bind (chunk_trailer m2 st r t2) (fun p => Ret (Some p)) | _ => Ret (Some (m2, t2)) end <> Diverge).
        { intros m2 t2. destruct (m_reader m2) as [[[] s' r'|r'|z' r']|]; try discriminate. destruct (empty_text t2); [discriminate|]. unfold chunk_trailer. destruct (feed_line m2 t2) as [[[ln|] t3] m3]; [|discriminate].
          pose proof (trailer_line_ok (m_head m3) ln). destruct (add_trailer_line (m_head m3) ln); cbn [bind]; [discriminate|discriminate|contradiction]. }
        destruct k; try discriminate; cbn [empty_text] in Ep.
        -- destruct (chunk_chunk m s r [c]) as [m2 t2]. exact (T _ _ Ep).
        -- exact (T m [c] Ep).
        -- exact (T m [c] Ep).
  - exfalso. rewrite BF_done in H by auto. discriminate.
  - exfalso. rewrite BF_done in H by auto. discriminate.
Qed.
Theorem feed_diverges text : forall m, inv m -> ~ continue_done m -> feed gz m text = Diverge ->
  exists t1 t2 m', text = t1 ++ t2 /\ t2 <> [] /\ feed gz m t1 = Ret (m', []) /\ m_mode m' = Body /\ stuck m'.
Proof.
  induction text as [|c text IH] using rev_ind; intros m Hi Hn H.
  - rewrite feed_resp, BF_nil in H. cbn [bind] in H. unfold resp in H. cbn [fst snd] in H. destruct (continue_dec m); [contradiction|discriminate].
  - assert (Hs : settled (feed gz m (text ++ [c]))) by (rewrite H; split; exact I).
    destruct (feed_split gz Hgz m text [c] (proj1 Hi) Hs) as [E _]. rewrite H in E. destruct (feed gz m text) as [[m' r]|e|] eqn:Ef; cbn [bind fst snd] in E; try discriminate.
    + destruct r as [|x r]; [|discriminate]. exists text, [c], m'. split; [reflexivity|]. split; [discriminate|]. split; [exact Ef|].
      pose proof (feed_inv _ _ _ _ Hi Ef) as Hi'. symmetry in E. rewrite feed_resp in E. destruct (base_feed gz m' [c]) as [[m1 t1]| |] eqn:E1; cbn [bind] in E; try discriminate.
      * exfalso. unfold resp in E. cbn [fst snd] in E. destruct (continue_dec m1) as [C|C]; [|discriminate].
        pose proof (base_feed_inv _ _ _ _ Hi' E1) as Hi1. pose proof (hinv_after _ (proj1 (proj1 Hi1)) C) as [Ha Hr].
        assert (Hr1 : m_reader m1 = None) by (apply continue_reader; [apply hinv_binv, Hi1|exact C]).
        assert (Hreg : regular (base_feed gz m' [c])).
        { rewrite E1. destruct C as [C _]. unfold complete in C. destruct (m_mode m1) eqn:Em; try discriminate. split; [congruence|]. split; [intros (z & r & X); congruence|]. intros (X & _). congruence. }
        assert (L : t1 = [] \/ t1 = [c]).
        { destruct (step gz Hgz m' c [] (proj1 Hi') Hreg) as [(x & S1 & _)|(x & S1 & _)].
          - specialize (S1 [] [] eq_refl). rewrite E1 in S1. destruct x as [x| |]; cbn [bind] in S1; try discriminate. rewrite BF_nil in S1. injection S1 as _ ->. auto.
          - specialize (S1 []). rewrite E1 in S1. injection S1 as _ ->. auto. }
        destruct L as [-> | ->]; [rewrite BF_nil in E; discriminate|].
        apply base_diverge in E as [_ (s & r & X & _)]; [congruence|]. split; [exact Ha|]. intros (z & r & X). congruence.
      * apply base_diverge in E1; assumption.
    + destruct (IH m Hi Hn Ef) as (t1 & t2 & m' & -> & N & A). exists t1, (t2 ++ [c]), m'. rewrite app_assoc. split; [reflexivity|]. split; [destruct t2; discriminate|exact A].
Qed.
Lemma stuck_diverges m text : m_mode m = Body -> stuck m -> text <> [] -> feed gz m text = Diverge.
Proof.
  intros Hm Hs Ht. rewrite feed_resp, BF_body by assumption. unfold feed_body. pose proof Hs as (s & r & Hr & _). rewrite Hr. fold (CF m text). rewrite CF_stuck by assumption. reflexivity.
Qed.
End G.
