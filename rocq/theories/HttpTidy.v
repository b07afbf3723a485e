(** What every parser reached by feed calls satisfies: header lists made of proper
    names and values, body entries that lie inside the buffer. *)
From Verif Require Import RegexFacts.
From Verif Require Export HttpHist.
From Coq Require Import String List Lia ZArith.
Open Scope list_scope.

(** ** Header lists *)
Definition good_pair (nv : bytes * bytes) : Prop :=
  no_lf (fst nv) /\ no_lf (snd nv) /\ ~ In COLON (fst nv) /\ strip (fst nv) = fst nv.
Definition good_kind (k : hkind) : Prop :=
  match k with
  | KResponse _ v _ (Some p) => ~ In SP v /\ no_lf v /\ no_lf p /\ no_ws_end p
  | _ => True
  end.
Definition started (k : hkind) : Prop := match k with KResponse _ _ _ None => False | _ => True end.
Definition good_hdr (h : hdr) : Prop := good_kind (h_kind h) /\ Forall good_pair (h_headers h) /\ Forall good_pair (h_trailers h).

Lemma strip_no_lf l : no_lf l -> no_lf (strip (l ++ [LF])).
Proof. intros H X. rewrite strip_app_r in X by reflexivity. apply In_strip in X. auto. Qed.
Lemma split_once_parts sep s a b : split_once sep s = Some (a, b) -> s = a ++ sep :: b /\ ~ In sep a.
Proof.
  revert a b. induction s as [|c s IH]; intros a b H; [discriminate|]. cbn [split_once] in H. destruct (N.eqb c sep) eqn:E.
  - injection H as <- <-. apply N.eqb_eq in E. subst c. split; [reflexivity|intros []].
  - destruct (split_once sep s) as [[x y]|] eqn:Es; [|discriminate]. injection H as <- <-. destruct (IH _ _ eq_refl) as [-> Hn]. split; [reflexivity|].
    intros [->|X]; [rewrite N.eqb_refl in E; discriminate|auto].
Qed.
Lemma split_field_good l nv : no_lf l -> split_field (l ++ [LF]) = Ret nv -> good_pair nv.
Proof.
  intros Hl. unfold split_field. destruct (split_once COLON (l ++ [LF])) as [[n v]|] eqn:E; [|discriminate]. intro H. injection H as <-.
  apply split_once_parts in E as [E Hc].
  assert (V : exists v', v = v' ++ [LF] /\ l = n ++ COLON :: v').
  { destruct v as [|x v] using rev_ind.
    - exfalso. apply (app_inj_tail l n LF COLON) in E as [_ E]. discriminate.
    - clear IHv. change (l ++ [LF] = n ++ (COLON :: v) ++ [x]) in E. rewrite app_assoc in E. apply app_inj_tail in E as [E1 E2]. subst x. exists v. auto. }
  destruct V as (v' & -> & ->). split; [|split; [|split]]; cbn [fst snd].
  - intro X. apply In_strip in X. apply Hl, in_or_app. auto.
  - apply strip_no_lf. intro X. apply Hl, in_or_app. right. right. exact X.
  - intro X. apply In_strip in X. auto.
  - apply strip_trimmed, strip_is_trimmed.
Qed.
Lemma fold_good l line r : Forall good_pair l -> no_lf line -> fold_last l (line ++ [LF]) = Ret r -> Forall good_pair r.
Proof.
  intros Hl Hn. unfold fold_last. destruct (rev l) as [|[k v] t] eqn:E; [discriminate|]. intro H. injection H as <-.
  assert (El : l = rev t ++ [(k, v)]) by (rewrite <- (rev_involutive l), E; reflexivity). rewrite El in Hl. apply Forall_app in Hl as [H1 H2]. apply Forall_app. split; [exact H1|].
  inversion H2 as [|? ? (P1 & P2 & P3 & P4) _]; subst. constructor; [|constructor]. split; [exact P1|]. split; [|split; [exact P3|exact P4]].
  cbn [snd] in *. intro X. apply in_app_or in X as [X|[X|X]]; [auto|discriminate|]. exact (strip_no_lf _ Hn X).
Qed.
Lemma note_same l : forall h h', note_headers h l = Ret h' -> h_kind h' = h_kind h /\ h_headers h' = h_headers h /\ h_trailers h' = h_trailers h.
Proof.
  induction l as [|nv l IH]; intros h h' H; cbn [note_headers] in H; [injection H as <-; auto|].
  destruct (note_header h nv) as [h1| |] eqn:E; try discriminate. cbn [bind] in H. apply IH in H.
  assert (K : h_kind h1 = h_kind h /\ h_headers h1 = h_headers h /\ h_trailers h1 = h_trailers h).
  { clear H. unfold note_header in E. cbv zeta in E. revert E. destruct (in_list _ _); [intro E; injection E as <-; auto|]. destruct (bytes_eqb _ _).
    { intro E. injection E as <-. destruct (contains _ _); auto. }
    destruct (bytes_eqb _ _). { destruct (h_mode h); [destruct (py_int _ _); [|discriminate]| |]; intro E; injection E as <-; auto. }
    destruct (bytes_eqb _ _). { intro E. injection E as <-. destruct (contains _ _); auto. }
    destruct (bytes_eqb _ _). { intro E. injection E as <-. auto. }
    destruct (bytes_eqb _ _). { intro E. injection E as <-. repeat destruct (contains _ _); auto. }
    intro E. injection E as <-. auto. }
  destruct K as (K1 & K2 & K3). destruct H as (G1 & G2 & G3). repeat split; congruence.
Qed.
Lemma header_line_good h l h' : good_hdr h -> no_lf l -> add_header_line h (l ++ [LF]) = Ret h' -> good_hdr h' /\ h_kind h' = h_kind h.
Proof.
  intros (G1 & G2 & G3) Hl. unfold add_header_line. destruct (is_folded _).
  - destruct (fold_last _ _) as [r| |] eqn:E; try discriminate. cbn [bind]. intro H. injection H as <-. split; [|reflexivity]. split; [exact G1|]. split; [|exact G3]. exact (fold_good _ _ _ G2 Hl E).
  - destruct (in_list _ _); [intro H; apply note_same in H as (K1 & K2 & K3); split; [split; [|split]; congruence|exact K1]|].
    destruct (split_field _) as [nv| |] eqn:E; try discriminate. cbn [bind]. intro H. injection H as <-. split; [|reflexivity]. split; [exact G1|]. split; [|exact G3].
    apply Forall_app. split; [exact G2|]. constructor; [|constructor]. exact (split_field_good _ _ Hl E).
Qed.
Lemma trailer_line_good h l h' : good_hdr h -> no_lf l -> add_trailer_line h (l ++ [LF]) = Ret h' -> good_hdr h' /\ h_kind h' = h_kind h /\ has_body h' = has_body h.
Proof.
  intros (G1 & G2 & G3) Hl. unfold add_trailer_line. destruct (is_folded _).
  - destruct (fold_last _ _) as [r| |] eqn:E; try discriminate. cbn [bind]. intro H. injection H as <-. split; [|split; reflexivity]. split; [exact G1|]. split; [exact G2|]. exact (fold_good _ _ _ G3 Hl E).
  - destruct (in_list _ _); [intro H; injection H as <-; split; [split; auto|auto]|].
    destruct (split_field _) as [nv| |] eqn:E; try discriminate. cbn [bind]. intro H. injection H as <-. split; [|split; reflexivity]. split; [exact G1|]. split; [exact G2|].
    apply Forall_app. split; [exact G3|]. constructor; [|constructor]. exact (split_field_good _ _ Hl E).
Qed.
Lemma rstrip_end s : no_ws_end (rstrip s).
Proof.
  intros t c H. unfold rstrip in H. assert (X : drop_while is_space (rev s) = c :: rev t) by (rewrite <- (rev_involutive (drop_while _ _)), H, rev_app_distr; reflexivity).
  destruct (is_space c) eqn:E; [|reflexivity]. exfalso. revert X. generalize (rev s). intro l. induction l as [|x l IH]; [discriminate|]. cbn [drop_while]. destruct (is_space x) eqn:Ex; [exact IH|].
  intro X. injection X as -> _. congruence.
Qed.
Lemma no_ws_suffix a b : no_ws_end (a ++ b) -> no_ws_end b.
Proof. intros H t c ->. apply (H (a ++ t) c). rewrite app_assoc. reflexivity. Qed.
Lemma start_line_good h l h' : good_hdr h -> no_lf l -> set_start_line h (l ++ [LF]) = Ret h' -> good_hdr h' /\ started (h_kind h').
Proof.
  intros (G1 & G2 & G3) Hl. unfold set_start_line. destruct (h_kind h) as [m t v b|rm v c p].
  - destruct (split_max 2 SP (rstrip (l ++ [LF]))) as [|x [|y [|z [|q r]]]]; try discriminate. destruct (bytes_eqb _ _).
    + destruct (split_all COLON y) as [|q1 [|q2 [|q3 r]]]; try discriminate. intro H. injection H as <-. split; [split; [exact I|auto]|exact I].
    + destruct (re_match url_rx y) as [g|]; intro H; injection H as <-; [destruct (group 1 g)|]; (split; [split; [exact I|auto]|exact I]).
  - set (s := rstrip (l ++ [LF])). assert (Hs : no_lf s).
    { unfold s. intro X. destruct (rstrip_split (l ++ [LF])) as (tl & E & Ht). destruct tl as [|x tl] using rev_ind.
      - rewrite app_nil_r in E. pose proof (rstrip_end (l ++ [LF]) l LF (eq_sym E)) as Y. discriminate.
      - rewrite app_assoc in E. apply app_inj_tail in E as [E _]. apply Hl. rewrite E. apply in_or_app. auto. }
    assert (He : no_ws_end s) by apply rstrip_end. clearbody s. destruct (split_max 2 SP s) as [|version [|code rest]] eqn:E; try discriminate.
    destruct (py_int 10 code) as [n|]; [|discriminate].
    assert (K : good_kind (KResponse rm version n (Some match rest with p :: _ => p | [] => [] end))).
    { cbn [split_max] in E. destruct (split_once SP s) as [[a b]|] eqn:E1; [|discriminate]. apply split_once_parts in E1 as [-> N1]. injection E as <- E. cbn [good_kind].
      split; [exact N1|]. split; [intro X; apply Hs, in_or_app; auto|].
      destruct (split_once SP b) as [[a2 b2]|] eqn:E2.
      - apply split_once_parts in E2 as [-> N2]. injection E as <- <-. split; [intro X; apply Hs, in_or_app; right; right; apply in_or_app; right; right; exact X|].
        apply (no_ws_suffix (a ++ SP :: a2 ++ [SP])). rewrite <- app_assoc. cbn [app]. rewrite <- app_assoc. exact He.
      - injection E as <- <-. split; [intros []|]. intros t0 c0 X. destruct t0; discriminate. }
    intro H. injection H as <-. destruct (bytes_eqb version _); (split; [split; [exact K|auto]|exact I]).
Qed.

(** ** Body entries *)
(** what the current reader still wants *)
Definition slack (m : msg) : Z :=
  match m_reader m with
  | Some (RChunk CChunk _ r) | Some (RLength r) | Some (RZip _ r) => Z.max 0 r
  | _ => 0
  end.
Definition within (m : msg) (s : Z) : Prop := Forall (fun e => (Z.of_nat (fst e) + snd e <= Z.of_nat (List.length (m_buf m)) + s)%Z) (m_chunks m).
Definition filled (m : msg) : Prop := within m (slack m).
Definition tidy (m : msg) : Prop :=
  good_hdr (m_head m) /\ filled m /\ (m_mode m = Start \/ m_mode m = Headers -> m_chunks m = []) /\
  (m_mode m <> Start -> started (h_kind (m_head m))) /\
  (m_mode m = Body -> has_body (m_head m) = true) /\
  (m_mode m = End -> slack m = 0%Z /\ (has_body (m_head m) = false -> m_chunks m = [])).
Lemma within_le m s m' s' : m_chunks m' = m_chunks m -> (Z.of_nat (List.length (m_buf m)) + s <= Z.of_nat (List.length (m_buf m')) + s')%Z -> within m s -> within m' s'.
Proof. intros E H. unfold within. rewrite E. apply Forall_impl. intros e He. lia. Qed.
Lemma slack_nonneg m : (0 <= slack m)%Z.
Proof. unfold slack. destruct (m_reader m) as [[[] s r|r|z r]|]; lia. Qed.

Lemma line_facts m text l t m' : bwf m -> feed_line m text = (l, t, m') ->
  m_head m' = m_head m /\ m_chunks m' = m_chunks m /\ m_mode m' = m_mode m /\ m_reader m' = m_reader m /\ List.length (m_buf m) <= List.length (m_buf m') /\ bwf m' /\
  match l with Some line => exists x, line = x ++ [LF] /\ no_lf x | None => True end.
Proof.
  intros Hb E. pose proof (feed_line_bwf _ _ _ _ _ Hb E) as Hb'. rewrite feed_line_eq in E by exact Hb. destruct (split_once LF text) as [[a b]|] eqn:Es; injection E as <- <- <-.
  - repeat (split; [reflexivity|]). split; [cbn; rewrite app_length; lia|]. split; [exact Hb'|]. exists (pending m ++ a). split; [rewrite app_assoc; reflexivity|].
    apply split_once_parts in Es as [_ Es]. intro X. apply in_app_or in X as [X|X]; [exact (proj2 Hb X)|auto].
  - repeat (split; [reflexivity|]). split; [cbn; rewrite app_length; lia|]. split; [exact Hb'|exact I].
Qed.
Lemma length_facts m text r r' t m' : (0 < r)%Z -> feed_length m text r = (r', t, m') ->
  m_head m' = m_head m /\ m_chunks m' = m_chunks m /\ m_mode m' = m_mode m /\ m_reader m' = m_reader m /\
  (Z.of_nat (List.length (m_buf m)) + r = Z.of_nat (List.length (m_buf m')) + r')%Z /\ (0 <= r')%Z /\ bwf m'.
Proof.
  intros Hr H. unfold feed_length in H. injection H as <- <- <-. repeat (split; [reflexivity|]). split; [cbn [m_buf set_buf]; rewrite app_length; lia|]. split; [|apply bwf_full].
  pose proof (firstn_le_length (Z.to_nat r) text). rewrite firstn_length. lia.
Qed.

(** the part of the invariant the body readers work with *)
Definition tidy_body (m : msg) (k : hkind) (hb : bool) : Prop := good_hdr (m_head m) /\ filled m /\ h_kind (m_head m) = k /\ has_body (m_head m) = hb /\ bwf m.
Lemma chunk_start_tidy m s r text m' t k hb : tidy_body m k hb -> m_reader m = Some (RChunk CStart s r) -> chunk_start m s r text = Ret (Some (m', t)) -> tidy_body m' k hb /\ m_mode m' = m_mode m.
Proof.
  intros (T1 & T2 & T3 & T4 & Hb) Hr H. unfold chunk_start in H. unfold filled, slack in T2. rewrite Hr in T2.
  destruct (feed_line m text) as [[[ln|] t2] m2] eqn:El; apply line_facts in El as (L1 & L2 & L3 & L4 & L5 & L6 & L7); try exact Hb.
  - destruct (py_int _ _) as [n|]; [|destruct s; discriminate]. injection H as <- <-. split; [|exact L3]. split; [cbn; congruence|]. split; [|split; [cbn; congruence|split; [cbn; congruence|apply bwf_creader, bwf_chunks, L6]]].
    unfold filled, within. cbn [set_creader set_reader set_chunks m_chunks m_buf slack m_reader]. apply Forall_app. split.
    + rewrite L2. eapply Forall_impl; [|exact T2]. intros e He. cbn beta in *. unfold slack. cbn [set_creader set_reader m_reader]. destruct (n =? 0)%Z; lia.
    + constructor; [|constructor]. cbn [fst snd]. unfold slack. cbn [set_creader set_reader m_reader]. destruct (Z.eqb_spec n 0); lia.
  - injection H as <- <-. split; [|exact L3]. split; [cbn; congruence|]. split; [|split; [cbn; congruence|split; [cbn; congruence|apply bwf_creader, L6]]].
    apply (within_le m 0); [exact L2| |exact T2]. unfold slack. cbn [set_creader set_reader m_reader m_buf]. lia.
Qed.
Lemma chunk_chunk_tidy m s r text m' t k hb : tidy_body m k hb -> m_reader m = Some (RChunk CChunk s r) -> chunk_chunk m s r text = (m', t) -> tidy_body m' k hb /\ m_mode m' = m_mode m.
Proof.
  intros (T1 & T2 & T3 & T4 & Hb) Hr H. unfold chunk_chunk in H. unfold filled, slack in T2. rewrite Hr in T2.
  destruct (if (0 <? r)%Z then _ else _) as [[r1 t1] m1] eqn:E.
  assert (S1 : m_head m1 = m_head m /\ m_chunks m1 = m_chunks m /\ m_mode m1 = m_mode m /\ (Z.of_nat (List.length (m_buf m)) + Z.max 0 r <= Z.of_nat (List.length (m_buf m1)) + Z.max 0 r1)%Z /\ bwf m1).
  { destruct (Z.ltb_spec 0 r); [apply length_facts in E as (E1 & E2 & E3 & E4 & E5 & E6 & E7); [|assumption]; repeat (split; [assumption|]); split; [lia|exact E7]|].
    injection E as <- <- <-. repeat (split; [reflexivity|]). exact Hb. }
  destruct S1 as (S1 & S2 & S3 & S4 & S5). destruct (Z.eqb_spec r1 0) as [->|Hn].
  - destruct (feed_line m1 t1) as [[[ln|] t2] m2] eqn:El; apply line_facts in El as (L1 & L2 & L3 & L4 & L5 & L6 & L7); try exact S5; injection H as <- <-; (split; [|cbn; congruence]); (split; [cbn; congruence|]);
      (split; [|split; [cbn; congruence|split; [cbn; congruence|apply bwf_creader, L6]]]); (apply (within_le m (Z.max 0 r)); [cbn; congruence| |exact T2]); unfold slack; cbn [set_creader set_reader m_reader m_buf]; lia.
  - injection H as <- <-. split; [|cbn; congruence]. split; [cbn; congruence|]. split; [|split; [cbn; congruence|split; [cbn; congruence|apply bwf_creader, S5]]].
    apply (within_le m (Z.max 0 r)); [cbn; congruence| |exact T2]. unfold slack; cbn [set_creader set_reader m_reader m_buf]. lia.
Qed.
Lemma chunk_trailer_tidy m s r text m' t k hb : tidy_body m k hb -> m_reader m = Some (RChunk CTrailer s r) -> chunk_trailer m s r text = Ret (m', t) -> tidy_body m' k hb /\ m_mode m' = m_mode m.
Proof.
  intros (T1 & T2 & T3 & T4 & Hb) Hr H. unfold chunk_trailer in H. unfold filled, slack in T2. rewrite Hr in T2.
  destruct (feed_line m text) as [[[ln|] t2] m2] eqn:El; apply line_facts in El as (L1 & L2 & L3 & L4 & L5 & L6 & L7); try exact Hb.
  - destruct L7 as (x & -> & Hx). destruct (add_trailer_line (m_head m2) (x ++ [LF])) as [h| |] eqn:E; try discriminate. cbn [bind] in H. injection H as <- <-.
    rewrite L1 in E. apply trailer_line_good in E as (E1 & E2 & E3); [|exact T1|exact Hx]. split; [|exact L3]. split; [exact E1|]. split; [|split; [cbn; congruence|split; [cbn; congruence|apply bwf_creader, bwf_head, L6]]].
    apply (within_le m 0); [exact L2| |exact T2]. unfold slack. cbn [set_creader set_reader m_reader m_buf set_head]. match goal with |- context [if ?b then _ else _] => destruct b end; lia.
  - injection H as <- <-. split; [|exact L3]. split; [congruence|]. split; [|split; [congruence|split; [congruence|exact L6]]].
    apply (within_le m 0); [exact L2| |exact T2]. unfold slack. rewrite L4, Hr. lia.
Qed.
Lemma pass_tidy m text m' t k hb : tidy_body m k hb -> chunk_pass m text = Ret (Some (m', t)) -> tidy_body m' k hb /\ m_mode m' = m_mode m.
Proof.
  intros T. unfold chunk_pass. set (x := match m_reader m with Some (RChunk CStart st r) => _ | _ => _ end).
  destruct x as [[[m1 t1]|]| |] eqn:Ex; try discriminate. cbn [bind].
  assert (S1 : tidy_body m1 k hb /\ m_mode m1 = m_mode m).
  { unfold x in Ex. destruct (m_reader m) as [[[] s r|r|z r]|] eqn:Er; try (injection Ex as <- <-; auto; fail). eapply chunk_start_tidy; eassumption. }
  destruct S1 as [S1 S1m]. set (y := match m_reader m1 with Some (RChunk CChunk st r) => _ | _ => _ end). destruct y as [m2 t2] eqn:Ey.
  assert (S2 : tidy_body m2 k hb /\ m_mode m2 = m_mode m).
  { unfold y in Ey. destruct (m_reader m1) as [[[] s r|r|z r]|] eqn:Er; try (injection Ey as <- <-; auto; fail). destruct (empty_text t1); [injection Ey as <- <-; auto|].
    rewrite <- S1m. eapply chunk_chunk_tidy; eassumption. }
  clear Ex Ey x y. destruct S2 as [S2 S2m]. destruct (m_reader m2) as [[[] s r|r|z r]|] eqn:Er; try (intro H; injection H as <- <-; auto; fail).
  destruct (empty_text t2); [intro H; injection H as <- <-; auto|]. destruct (chunk_trailer m2 s r t2) as [[m3 t3]| |] eqn:E; try discriminate. cbn [bind]. intro H. injection H as <- <-.
  rewrite <- S2m. eapply chunk_trailer_tidy; eassumption.
Qed.
Lemma chunk_feed_tidy f : forall m text m' t k hb, tidy_body m k hb -> chunk_feed f m text = Ret (Some (m', t)) ->
  tidy_body m' k hb /\ (m_mode m' = m_mode m \/ m_mode m' = End /\ slack m' = 0%Z).
Proof.
  induction f as [|f IH]; intros m text m' t k hb T H; [discriminate|]. cbn [chunk_feed] in H. destruct text as [|x l]; [injection H as <- <-; auto|].
  destruct (chunk_pass m (x :: l)) as [[[m1 t1]|]| |] eqn:E; try discriminate. cbn [bind] in H. eapply pass_tidy in E; [|exact T]. destruct E as [E Em].
  assert (Rec : chunk_feed f m1 t1 = Ret (Some (m', t)) -> tidy_body m' k hb /\ (m_mode m' = m_mode m \/ m_mode m' = End /\ slack m' = 0%Z)).
  { intro R. apply IH with (k := k) (hb := hb) in R; [|exact E]. rewrite Em in R. exact R. }
  destruct (m_reader m1) as [[[] s r|r|z r]|] eqn:Er; try (apply Rec, H). injection H as <- <-. split; [|right; split; [reflexivity|]; unfold slack; cbn [set_mode m_reader]; rewrite Er; reflexivity].
  destruct E as (E1 & E2 & E3 & E4 & E5). split; [exact E1|]. split; [exact E2|]. split; [exact E3|]. split; [exact E4|apply bwf_mode, E5].
Qed.
Section G.
Variable gz : bytes -> outcome bytes.
Lemma begin_body_tidy m text m' : bwf m -> m_reader m = None -> m_mode m = Body -> m_chunks m = [] -> good_hdr (m_head m) -> started (h_kind (m_head m)) ->
  begin_body gz m text = Ret m' -> tidy m'.
Proof.
  intros Hb Hr Hm Hc Hg Hs H. pose proof H as Hh. apply begin_body_head in Hh. unfold begin_body in H. destruct (has_body (m_head m)) eqn:Eh; cbn [negb] in H.
  2:{ injection H as <-. split; [exact Hg|]. split; [unfold filled, within; cbn; rewrite Hc; constructor|]. split; [intros [X|X]; discriminate|]. split; [intros _; exact Hs|]. split; [discriminate|].
      intros _. split; [unfold slack; cbn; rewrite Hr; reflexivity|auto]. }
  assert (Fin : forall s, filled m' -> m_mode m' = Body \/ m_mode m' = End /\ slack m' = 0%Z -> s = m' -> tidy m').
  { intros s F M _. split; [rewrite Hh; exact Hg|]. split; [exact F|]. split; [intros [X|X]; destruct M as [M|[M _]]; congruence|]. split; [intros _; rewrite Hh; exact Hs|].
    split; [rewrite Hh; auto|]. intros X. destruct M as [M|[M Z]]; [congruence|]. split; [exact Z|]. rewrite Hh. congruence. }
  destruct (body_is_chunked (m_head m)) eqn:Ec.
  { apply (Fin m'); [|left; injection H as <-; exact Hm|reflexivity]. injection H as <-. unfold filled, within. cbn. rewrite Hc. constructor. }
  destruct (body_length (m_head m)) as [n|] eqn:El.
  - match type of H with bind ?x _ = _ => destruct x as [rd| |] eqn:Ex end; try discriminate. cbn [bind] in H. cbv zeta in H.
    assert (Rd : exists z, rd = RLength z \/ exists w, rd = RZip w z).
    { match type of Ex with (if ?g then _ else _) = _ => destruct g end; [|injection Ex as <-; eauto]. unfold zip_reader in Ex. destruct (gz _) as [d|e|]; try discriminate; [injection Ex as <-; eauto|]. destruct e; try discriminate. injection Ex as <-; eauto. }
    assert (W : forall x, m_reader x = Some rd -> m_buf x = m_buf m -> m_chunks x = [(m_off m, reader_remaining rd)] -> filled x).
    { intros x X1 X2 X3. unfold filled, within. rewrite X3, X2. constructor; [|constructor]. unfold slack. rewrite X1. pose proof (proj1 Hb) as Ho. cbn [fst snd]. destruct Rd as (z & [->|(w & ->)]); cbn; lia. }
    apply (Fin m'); [| |reflexivity]; destruct (Z.eqb_spec (reader_remaining rd) 0) as [Z|Z]; injection H as <-.
    + apply W; reflexivity. + apply W; reflexivity.
    + right. split; [reflexivity|]. unfold slack. cbn. destruct Rd as (z & [->|(w & ->)]); cbn in *; lia.
    + left. exact Hm.
  - apply (Fin m'); [|left; injection H as <-; exact Hm|reflexivity]. injection H as <-. unfold filled, within. cbn. constructor; [|constructor]. pose proof (proj1 Hb). cbn. lia.
Qed.
Lemma feed_body_tidy m text m' t : bwf m -> m_mode m = Body -> tidy m -> feed_body m text = Ret (m', t) -> tidy m'.
Proof.
  intros Hb Hm (T1 & T2 & T3 & T4 & T5 & T6) H. unfold feed_body in H.
  assert (St : started (h_kind (m_head m))) by (apply T4; congruence). specialize (T5 Hm).
  assert (Fin : good_hdr (m_head m') -> filled m' -> h_kind (m_head m') = h_kind (m_head m) -> has_body (m_head m') = true -> m_mode m' = Body \/ m_mode m' = End /\ slack m' = 0%Z -> tidy m').
  { intros F1 F2 F3 F4 M. split; [exact F1|]. split; [exact F2|]. split; [intros [X|X]; destruct M as [M|[M _]]; congruence|]. split; [intros _; rewrite F3; exact St|]. split; [auto|].
    intro X. destruct M as [M|[M Z]]; [congruence|]. split; [exact Z|congruence]. }
  assert (Raw : forall m1, m_reader m1 = None -> filled m1 -> m_head m1 = m_head m -> m_mode m1 = Body -> raw_body m1 text = Ret (m', t) -> tidy m').
  { intros m1 R1 R2 R3 R4. unfold raw_body. unfold filled, within, slack in R2. rewrite R1 in R2. destruct (m_chunks m1) as [|[o n] [|q l]] eqn:Ec; try discriminate. intro X. injection X as <- <-.
    apply Fin; [cbn; congruence| |cbn; congruence|cbn; congruence|left; exact R4]. unfold filled, within, slack. cbn. rewrite R1. inversion R2; subst. constructor; [|constructor]. cbn in *. rewrite app_length. lia. }
  destruct (m_reader m) as [[c s r|r|z r]|] eqn:Er.
  - destruct (chunk_feed _ m text) as [[[m1 t1]|]| |] eqn:E; try discriminate; cbn [bind] in H.
    + injection H as <- <-. apply chunk_feed_tidy with (k := h_kind (m_head m)) (hb := true) in E as ((E1 & E2 & E3 & E4 & E5) & E6); [|repeat split; try assumption; apply T1 || apply Hb].
      apply Fin; try assumption. destruct E6 as [E6|E6]; [left; congruence|right; exact E6].
    + apply Raw in H; [exact H|reflexivity| |reflexivity|exact Hm]. unfold filled, within, slack. cbn. constructor; [|constructor]. cbn. lia.
  - injection H as H. unfold length_feed in H. destruct (if (0 <? r)%Z then _ else _) as [[r1 t1] m1] eqn:E. injection H as <- <-.
    assert (S1 : m_head m1 = m_head m /\ m_chunks m1 = m_chunks m /\ m_mode m1 = m_mode m /\ (Z.of_nat (List.length (m_buf m)) + Z.max 0 r <= Z.of_nat (List.length (m_buf m1)) + Z.max 0 r1)%Z).
    { destruct (Z.ltb_spec 0 r); [apply length_facts in E as (E1 & E2 & E3 & E4 & E5 & E6 & E7); [|assumption]; repeat (split; [assumption|]); lia|]. injection E as <- <- <-. repeat (split; [reflexivity|]). lia. }
    destruct S1 as (S1 & S2 & S3 & S4). unfold filled, slack in T2. rewrite Er in T2.
    assert (W : forall x, m_reader x = Some (RLength r1) -> m_buf x = m_buf m1 -> m_chunks x = m_chunks m -> filled x).
    { intros x X1 X2 X3. apply (within_le m (Z.max 0 r)); [exact X3| |exact T2]. rewrite X2. unfold slack. rewrite X1. exact S4. }
    destruct (Z.leb_spec r1 0); apply Fin; try (cbn; congruence).
    + apply W; [reflexivity|reflexivity|exact S2]. + right. split; [reflexivity|]. unfold slack. cbn. lia.
    + apply W; [reflexivity|reflexivity|exact S2]. + left. cbn. congruence.
  - injection H as H. unfold zip_feed in H. destruct (if (0 <? r)%Z then _ else _) as [[r1 t1] m1] eqn:E. injection H as <- <-.
    assert (S1 : m_head m1 = m_head m /\ m_chunks m1 = m_chunks m /\ m_mode m1 = m_mode m /\ (Z.of_nat (List.length (m_buf m)) + Z.max 0 r <= Z.of_nat (List.length (m_buf m1)) + Z.max 0 r1)%Z).
    { destruct (Z.ltb_spec 0 r); [apply length_facts in E as (E1 & E2 & E3 & E4 & E5 & E6 & E7); [|assumption]; repeat (split; [assumption|]); lia|]. injection E as <- <- <-. repeat (split; [reflexivity|]). lia. }
    destruct S1 as (S1 & S2 & S3 & S4). unfold filled, slack in T2. rewrite Er in T2.
    assert (W : forall x, m_reader x = Some (RZip z r1) -> m_buf x = m_buf m1 -> m_chunks x = m_chunks m -> filled x).
    { intros x X1 X2 X3. apply (within_le m (Z.max 0 r)); [exact X3| |exact T2]. rewrite X2. unfold slack. rewrite X1. exact S4. }
    destruct (Z.leb_spec r1 0); apply Fin; try (cbn; congruence).
    + apply W; [reflexivity|reflexivity|exact S2]. + right. split; [reflexivity|]. unfold slack. cbn. lia.
    + apply W; [reflexivity|reflexivity|exact S2]. + left. cbn. congruence.
  - apply Raw in H; [exact H|exact Er|exact T2|reflexivity|exact Hm].
Qed.
Lemma feed_headers_tidy f : forall m text m' t, bwf m -> good_hdr (m_head m) -> feed_headers f m text = Ret (m', t) ->
  good_hdr (m_head m') /\ h_kind (m_head m') = h_kind (m_head m) /\ m_chunks m' = m_chunks m /\ (m_mode m' = m_mode m \/ m_mode m' = Body).
Proof.
  induction f as [|f IH]; intros m text m' t Hb Hg H; [discriminate|]. cbn [feed_headers] in H. destruct text as [|x l]; [injection H as <- <-; auto|].
  destruct (feed_line m (x :: l)) as [[[ln|] t1] m1] eqn:E; apply line_facts in E as (L1 & L2 & L3 & L4 & L5 & L6 & L7); try exact Hb.
  - destruct L7 as (y & -> & Hy). destruct (add_header_line (m_head m1) (y ++ [LF])) as [h| |] eqn:Ea; try discriminate. cbn [bind] in H. rewrite L1 in Ea. apply header_line_good in Ea as [A1 A2]; [|exact Hg|exact Hy].
    destruct (in_list (y ++ [LF]) NEWLINES).
    + injection H as <- <-. cbn. auto.
    + apply IH in H as (I1 & I2 & I3 & I4); [|apply bwf_head, L6|exact A1]. cbn in *. split; [exact I1|]. split; [congruence|]. split; [congruence|]. rewrite L3 in I4. exact I4.
  - apply IH in H as (I1 & I2 & I3 & I4); [|exact L6|congruence]. split; [exact I1|]. split; [congruence|]. split; [congruence|]. rewrite L3 in I4. exact I4.
Qed.
Theorem base_feed_tidy m text m' t : inv m -> tidy m -> base_feed gz m text = Ret (m', t) -> tidy m'.
Proof.
  intros Hi T H. unfold base_feed in H.
  match type of H with bind ?x _ = _ => destruct x as [[m1 t1]| |] eqn:E1 end; try discriminate. cbn [bind] in H.
  assert (H1 : tidy m1 /\ bwf m1 /\ (m_mode m1 = Headers -> m_reader m1 = None)).
  { pose proof Hi as ((Hb & Hn & _) & _). destruct (m_mode m) eqn:Em; try (injection E1 as <- <-; rewrite Em; auto; fail). destruct (empty_text text); [injection E1 as <- <-; rewrite Em; auto|].
    pose proof T as (T1 & T2 & T3 & T4 & T5 & T6). unfold feed_start in E1. specialize (T3 (or_introl Em)). specialize (Hn (or_introl eq_refl)).
    destruct (feed_line m text) as [[[ln|] t2] m2] eqn:El; apply line_facts in El as (L1 & L2 & L3 & L4 & L5 & L6 & L7); try exact Hb.
    - assert (F : forall x, m_chunks x = m_chunks m2 -> filled x) by (intros x X; unfold filled, within; rewrite X, L2, T3; constructor).
      destruct (in_list ln NEWLINES).
      + injection E1 as <- <-. split; [|split; [exact L6|intros _; congruence]]. split; [congruence|]. split; [apply F; reflexivity|]. split; [intros _; congruence|]. split; [congruence|]. split; congruence.
      + destruct L7 as (y & -> & Hy). destruct (set_start_line (m_head m2) (y ++ [LF])) as [h| |] eqn:Es; try discriminate. cbn [bind] in E1. injection E1 as <- <-. rewrite L1 in Es.
        apply start_line_good in Es as [S1 S2]; [|exact T1|exact Hy]. split; [|split; [apply bwf_mode, bwf_head, L6|intros _; cbn; congruence]].
        split; [exact S1|]. split; [apply F; reflexivity|]. split; [intros _; cbn; congruence|]. split; [intros _; exact S2|]. split; discriminate.
    - injection E1 as <- <-. split; [|split; [exact L6|intros _; congruence]]. split; [congruence|]. split; [unfold filled, within; rewrite L2, T3; constructor|]. split; [intros _; congruence|]. split; [congruence|]. split; congruence. }
  clear E1. destruct H1 as (H1 & Hb1 & Hr1). match type of H with bind ?x _ = _ => destruct x as [[m2 t2]| |] eqn:E2 end; try discriminate. cbn [bind] in H.
  assert (H2 : tidy m2 /\ bwf m2).
  { destruct (m_mode m1) eqn:Em; try (injection E2 as <- <-; auto; fail). destruct (empty_text t1); [injection E2 as <- <-; auto|].
    specialize (Hr1 eq_refl). pose proof H1 as (T1 & T2 & T3 & T4 & T5 & T6). specialize (T3 (or_intror Em)). assert (St : started (h_kind (m_head m1))) by (apply T4; congruence).
    destruct (feed_headers _ m1 t1) as [[m3 t3]| |] eqn:E3; try discriminate. cbn [bind] in E2. pose proof (feed_headers_bwf _ _ _ _ _ Hb1 E3) as Hb3.
    pose proof (feed_headers_tidy _ _ _ _ _ Hb1 T1 E3) as (F1 & F2 & F3 & F4). apply feed_headers_reader in E3. rewrite Hr1 in E3. rewrite Em in F4.
    destruct F4 as [F4|F4]; rewrite F4 in E2.
    - injection E2 as <- <-. split; [|exact Hb3]. split; [exact F1|]. split; [unfold filled, within; rewrite F3, T3; constructor|]. split; [intros _; congruence|]. split; [intros _; congruence|]. split; congruence.
    - destruct (begin_body gz m3 t3) as [m4| |] eqn:E4; try discriminate. cbn [bind] in E2. injection E2 as <- <-. split.
      + eapply begin_body_tidy; [exact Hb3|exact E3|exact F4|congruence|exact F1|congruence|exact E4].
      + pose proof (begin_body_inv gz m3 t3 m4 Hb3 E3 F4 E4) as X. apply X. }
  clear E2. destruct H2 as [H2 Hb2]. destruct (m_mode m2) eqn:Em; try (injection H as <- <-; auto; fail).
  destruct (empty_text t2); [injection H as <- <-; auto|]. eapply feed_body_tidy; eassumption.
Qed.
Lemma after_tidy m : continue_done m -> tidy (after_continue m).
Proof.
  intros [_ C]. unfold status in C. unfold after_continue. destruct (h_kind (m_head m)); [discriminate|].
  split; [split; [exact I|split; constructor]|]. split; [constructor|]. split; [reflexivity|]. split; [intro X; exfalso; apply X; reflexivity|]. split; discriminate.
Qed.
Theorem feed_tidy m text m' t : inv m -> tidy m -> feed gz m text = Ret (m', t) -> tidy m'.
Proof.
  intros Hi T. rewrite feed_resp. destruct (base_feed gz m text) as [[m1 t1]| |] eqn:E; try discriminate. cbn [bind].
  pose proof (base_feed_inv _ _ _ _ _ Hi E) as Hi1. apply base_feed_tidy in E; [|exact Hi|exact T]. unfold resp. cbn [fst snd]. destruct (continue_dec m1) as [C|C].
  - intro H. apply base_feed_tidy in H; [exact H| |apply after_tidy, C]. apply after_inv; [apply Hi1|exact C].
  - intro H. injection H as <- <-. exact E.
Qed.
Lemma fresh_tidy kind ign : tidy (parser_for kind ign).
Proof. split; [destruct kind; (split; [exact I|split; constructor])|]. split; [constructor|]. split; [reflexivity|]. split; [intro X; contradiction|]. split; discriminate. Qed.
Theorem reached_tidy m : reached gz m -> tidy m.
Proof.
  intros (kind & ign & l & S). assert (G : forall a l b, session gz a l b -> inv a -> tidy a -> tidy b).
  { intros a l0 b S0. induction S0 as [x|x text m1 r l0 m2 E S0 IH]; intros Hi T; [exact T|]. apply IH; [eapply feed_inv; [exact Hi|exact E]|eapply feed_tidy; [exact Hi|exact T|exact E]]. }
  eapply G; [exact S|eapply fresh_inv, parser_fresh|apply fresh_tidy].
Qed.
End G.
