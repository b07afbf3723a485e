(** Histories of feed calls that may raise. *)
From Verif Require Export HttpRaiseFacts.
From Coq Require Import String List Lia ZArith.
Open Scope list_scope.

Section G.
Variable gz : bytes -> outcome bytes.
(** ** through a "100 Continue" *)
Lemma code100_no_body h : (match h_kind h with KResponse _ _ c _ => Some c | _ => None end) = Some 100%Z -> has_body h = false.
Proof. unfold has_body. destruct (h_kind h); [discriminate|]. intro X. injection X as ->. apply Bool.andb_false_r. Qed.
Lemma continue_local n : forall m text m1 t, List.length text <= n -> inv m -> base_feed gz m text = Ret (m1, t) -> continue_done m1 ->
  exists u, text = u ++ t /\ forall t', base_feed gz m (u ++ t') = Ret (m1, t').
Proof.
  induction n as [|n IH]; intros m text m1 t Hn Hi H C.
  - destruct text; [|cbn in Hn; lia]. rewrite BF_nil in H. injection H as <- <-. exists []. split; [reflexivity|]. intro t'. cbn [app]. apply BF_done. left.
    destruct C as [C _]. unfold complete in C. destruct (m_mode m); try discriminate. reflexivity.
  - destruct text as [|c0 t0] eqn:Et.
    { rewrite BF_nil in H. injection H as <- <-. exists []. split; [reflexivity|]. intro t'. cbn [app]. apply BF_done. left.
      destruct C as [C _]. unfold complete in C. destruct (m_mode m); try discriminate. reflexivity. }
    assert (Ht : text <> []) by (rewrite Et; discriminate). rewrite <- Et in *. clear Et.
    assert (M1 : m_mode m1 = End) by (destruct C as [C _]; unfold complete in C; destruct (m_mode m1); try discriminate; reflexivity).
    pose proof Hi as [[Hb [Hr [Hc Hh]]] Hz]. destruct (m_mode m) eqn:Hm.
    + rewrite (BF_start gz m text Hm Hb Ht) in H. destruct (split_once LF text) as [[a b]|] eqn:E; [|injection H as <- <-; cbn in M1; congruence].
      destruct (lf_parts _ _ _ E) as (T & Na & Hl & Hx & Hn'). cbv zeta in H. destruct (in_list _ NEWLINES) eqn:En; [injection H as <- <-; cbn in M1; congruence|].
      destruct (set_start_line (m_head m) _) as [h|e0|] eqn:Eh; try discriminate. cbn [bind] in H.
      apply IH in H; [|lia|apply reader_none_inv; [apply bwf_mode, bwf_head, bwf_took|apply Hr; auto]|exact C].
      destruct H as (u & T2 & K). exists (a ++ LF :: u). split; [rewrite cons_app, <- T2; exact T|]. intro t'. rewrite cons_app.
      rewrite (BF_start gz m _ Hm Hb (mid_nonempty _ _ _)), Hx. cbv zeta. rewrite En, Eh. apply K.
    + rewrite (BF_headers gz m text Hm Hb Ht) in H. destruct (split_once LF text) as [[a b]|] eqn:E; [|injection H as <- <-; cbn in M1; congruence].
      destruct (lf_parts _ _ _ E) as (T & Na & Hl & Hx & Hn'). cbv zeta in H. destruct (add_header_line (m_head m) _) as [h|e0|] eqn:Eh; try discriminate. cbn [bind] in H.
      destruct (in_list (pending m ++ a ++ [LF]) NEWLINES) eqn:En.
      * set (m2 := set_mode (set_head (took m (a ++ [LF])) h) Body) in *. assert (R2 : m_reader m2 = None) by (apply Hr; auto).
        destruct (begin_body gz m2 b) as [m3|e1|] eqn:E3; try discriminate. cbn [bind] in H.
        assert (Hk : has_body h = false).
        { destruct C as [_ C]. apply (code100_no_body h). unfold status in C. destruct (begin_body_mode gz m2 b m3 eq_refl E3) as [M3|M3].
          - assert (Hk3 : h_kind (m_head m1) = h_kind (m_head m3)).
            { destruct b as [|x b']; [rewrite BF_nil in H; injection H as <- <-; reflexivity|]. rewrite BF_body in H by (auto; discriminate). eapply feed_body_kind, H. }
            rewrite Hk3 in C. apply begin_body_head in E3. rewrite E3 in C. exact C.
          - rewrite BF_done in H by auto. injection H as <- <-. apply begin_body_head in E3. rewrite E3 in C. exact C. }
        assert (B3 : forall x, begin_body gz m2 x = Ret (set_mode m2 End)) by (intro x; unfold begin_body; cbn [m_head m2 set_mode set_head]; rewrite Hk; reflexivity).
        rewrite B3 in E3. injection E3 as <-. rewrite BF_done in H by auto. injection H as <- <-. exists (a ++ [LF]). split; [rewrite <- app_assoc; exact T|].
        intro t'. rewrite <- app_assoc. cbn [app]. rewrite (BF_headers gz m _ Hm Hb (mid_nonempty _ _ _)), Hx. cbv zeta. rewrite Eh. cbn [bind]. rewrite En. fold m2. rewrite B3. cbn [bind]. apply BF_done. auto.
      * apply IH in H; [|lia|apply reader_none_inv; [apply bwf_head, bwf_took|apply Hr; auto]|exact C].
        destruct H as (u & T2 & K). exists (a ++ LF :: u). split; [rewrite cons_app, <- T2; exact T|]. intro t'. rewrite cons_app.
        rewrite (BF_headers gz m _ Hm Hb (mid_nonempty _ _ _)), Hx. cbv zeta. rewrite Eh. cbn [bind]. rewrite En. apply K.
    + exfalso. rewrite BF_body in H by assumption. pose proof (feed_body_kind _ _ _ _ H) as Hk. destruct C as [_ C]. unfold status in C. rewrite Hk in C. apply code100_no_body in C.
      destruct (m_reader m) as [rd|] eqn:Er; [rewrite Hh in C by discriminate; discriminate|].
      unfold feed_body in H. rewrite Er in H. unfold raw_body in H. destruct (m_chunks m) as [|[o k] [|q l]]; try discriminate. injection H as <- <-. cbn in M1. congruence.
    + rewrite BF_done in H by auto. injection H as <- <-. exists []. split; [reflexivity|]. intro t'. apply BF_done. auto.
    + rewrite BF_done in H by auto. injection H as <- <-. congruence.
Qed.

(** ** where feed raises *)
(** a complete line was refused: [m1] has taken what came before the end of that line *)
Definition line_refused (m : msg) (text : bytes) (e : exn) (m' : msg) (a lost : bytes) (m1 : msg) (h' : hdr) : Prop :=
  text = a ++ LF :: lost /\ feed gz m a = Ret (m1, []) /\ inv m1 /\ refuses_line m1 (pending m1 ++ [LF]) e h' /\ m' = set_head (took m1 [LF]) h'.
(** the blank line was taken, the body could not be unpacked *)
Definition gzip_refused (m : msg) (text : bytes) (e : exn) (m' : msg) (a lost : bytes) (m1 : msg) (h' : hdr) : Prop :=
  text = a ++ LF :: lost /\ feed gz m a = Ret (m1, []) /\ inv m1 /\ m_mode m1 = Headers /\
    add_header_line (m_head m1) (pending m1 ++ [LF]) = Ret h' /\ in_list (pending m1 ++ [LF]) NEWLINES = true /\
    m' = set_mode (set_head (took m1 [LF]) h') Body /\ begin_body gz m' lost = Raise e.
Lemma not_end m : m_mode m <> End -> ~ continue_done m.
Proof. intros H [C _]. unfold complete in C. destruct (m_mode m); try discriminate. apply H. reflexivity. Qed.
Lemma feed_of_base m a m1 : base_feed gz m a = Ret (m1, []) -> m_mode m1 <> End -> feed gz m a = Ret (m1, []).
Proof. intros H M. rewrite feed_resp, H. cbn [bind]. unfold resp. cbn [fst snd]. destruct (continue_dec m1) as [C|C]; [exfalso; exact (not_end _ M C)|reflexivity]. Qed.
Lemma refuses_mode m line e h : refuses_line m line e h -> m_mode m <> End.
Proof. intros [(X & _)|[(X & _)|[(X & _)|(X & _)]]]; rewrite X; discriminate. Qed.
Lemma after_mode m : continue_done m -> m_mode (after_continue m) = Start.
Proof. intros [_ C]. unfold after_continue, status in *. destruct (h_kind (m_head m)); [discriminate|reflexivity]. Qed.
Theorem feed_raise m text e m' : inv m -> x_feed gz m text = (Raise e, m') ->
  (exists a lost m1 h', line_refused m text e m' a lost m1 h') \/ (exists a lost m1 h', gzip_refused m text e m' a lost m1 h') \/
  (m' = m /\ e = EValueError /\ m_mode m = Body /\ m_reader m = None /\ forall x, m_chunks m <> [x]).
Proof.
  intros Hi H. rewrite x_feed_resp in H by exact Hi. destruct (x_base gz m text) as [[t|e0|] m0] eqn:E; try discriminate.
  - unfold x_resp in H. cbn [fst snd] in H. destruct (continue_dec m0) as [C|C]; [|discriminate].
    assert (P : base_feed gz m text = Ret (m0, t)) by (rewrite <- x_base_plain by exact Hi; rewrite E; reflexivity).
    destruct (continue_local (List.length text) _ _ _ _ (le_n _) Hi P C) as (u & T & K).
    pose proof (base_feed_inv gz _ _ _ _ Hi P) as I0. assert (Ia : inv (after_continue m0)) by (apply after_inv; [apply I0|exact C]).
    assert (F : forall a m1, base_feed gz (after_continue m0) a = Ret (m1, []) -> feed gz m (u ++ a) = Ret (m1, [])).
    { intros a m1 X. rewrite feed_resp, K. cbn [bind]. unfold resp. cbn [fst snd]. destruct (continue_dec m0) as [_|C']; [exact X|contradiction]. }
    apply (x_base_raise gz (List.length t)) in H; auto. destruct H as [H|[H|H]].
    + left. destruct H as (a & lost & m1 & h' & T2 & F2 & _ & R & E'). exists (u ++ a), lost, m1, h'. split; [rewrite <- app_assoc, <- T2; exact T|]. split; [apply F, F2|].
      split; [eapply base_feed_inv; [exact Ia|exact F2]|]. split; assumption.
    + right. left. destruct H as (a & lost & m1 & h' & T2 & F2 & _ & R1 & _ & R). exists (u ++ a), lost, m1, h'. split; [rewrite <- app_assoc, <- T2; exact T|]. split; [apply F, F2|].
      split; [eapply base_feed_inv; [exact Ia|exact F2]|]. split; assumption.
    + exfalso. destruct H as (_ & _ & X & _). rewrite after_mode in X by exact C. discriminate.
  - injection H as <- <-. apply (x_base_raise gz (List.length text)) in E; auto. destruct E as [H|[H|H]].
    + left. destruct H as (a & lost & m1 & h' & T2 & F2 & _ & R & E'). exists a, lost, m1, h'. split; [exact T2|]. split; [apply feed_of_base; [exact F2|eapply refuses_mode, R]|].
      split; [eapply base_feed_inv; [exact Hi|exact F2]|]. split; assumption.
    + right. left. destruct H as (a & lost & m1 & h' & T2 & F2 & _ & R1 & _ & R). exists a, lost, m1, h'. split; [exact T2|]. split; [apply feed_of_base; [exact F2|rewrite R1; discriminate]|].
      split; [eapply base_feed_inv; [exact Hi|exact F2]|]. split; assumption.
    + right. right. exact H.
Qed.

(** ** what every such parser satisfies *)
Lemma note_until_same l : forall h, h_kind (note_until h l) = h_kind h /\ h_headers (note_until h l) = h_headers h /\ h_trailers (note_until h l) = h_trailers h.
Proof.
  induction l as [|nv l IH]; intro h; [auto|]. cbn [note_until]. destruct (note_header h nv) as [h1| |] eqn:E; auto.
  assert (N : note_headers h [nv] = Ret h1) by (cbn [note_headers]; rewrite E; reflexivity). apply note_same in N as (A & B & C). destruct (IH h1) as (X & Y & Z). repeat split; congruence.
Qed.
Lemma x_header_same h line e h' : x_header_line h line = (Raise e, h') -> h_kind h' = h_kind h /\ h_headers h' = h_headers h /\ h_trailers h' = h_trailers h.
Proof.
  unfold x_header_line. destruct (add_header_line h line); try discriminate. intro X. apply (f_equal snd) in X. cbn [snd] in X. rewrite <- X. destruct (is_folded line); auto. destruct (in_list line NEWLINES); auto. apply note_until_same.
Qed.
Lemma refused_head m line e h' : refuses_line m line e h' -> h_kind h' = h_kind (m_head m) /\ h_headers h' = h_headers (m_head m) /\ h_trailers h' = h_trailers (m_head m) /\ (m_mode m <> Headers -> h' = m_head m).
Proof.
  intros [(X & _ & _ & ->)|[(X & Y)|[(X & _ & _ & _ & ->)|(X & _ & _ & ->)]]]; auto. apply x_header_same in Y as (A & B & C). repeat split; auto. intro Z. exfalso. auto.
Qed.
Lemma line_refused_inv m text e m' a lost m1 h' : line_refused m text e m' a lost m1 h' -> inv m'.
Proof.
  intros (_ & _ & I1 & R & ->). destruct I1 as [[Hb [Hr [Hc Hh]]] Hz]. assert (Hb' : bwf (set_head (took m1 [LF]) h')) by apply bwf_head, bwf_took.
  destruct (refused_head _ _ _ _ R) as (_ & _ & _ & K). destruct (m_mode m1) eqn:Hm; try (rewrite K by discriminate; split; [split; [exact Hb'|split; [|split]]|]; cbn; rewrite ?Hm; assumption).
  apply reader_none_inv; [exact Hb'|]. apply Hr. auto.
Qed.
Theorem x_feed_inv m text o m' : inv m -> x_feed gz m text = (o, m') -> o <> Diverge -> inv m'.
Proof.
  intros Hi H Ho. destruct o as [t|e|]; [| |contradiction].
  - apply (feed_inv gz m text m' t Hi). rewrite <- x_feed_plain by exact Hi. rewrite H. reflexivity.
  - apply feed_raise in H; [|exact Hi]. destruct H as [(a & lost & m1 & h' & H)|[(a & lost & m1 & h' & H)|(-> & _)]]; [eapply line_refused_inv, H| |exact Hi].
    destruct H as (_ & _ & [[Hb [Hr _]] _] & M & _ & _ & -> & _). apply reader_none_inv; [apply bwf_mode, bwf_head, bwf_took|]. apply Hr. auto.
Qed.
Lemma good_same h h' : h_kind h' = h_kind h -> h_headers h' = h_headers h -> h_trailers h' = h_trailers h -> good_hdr h -> good_hdr h'.
Proof. unfold good_hdr. intros -> -> ->. auto. Qed.
Lemma within_took m s a : within m s -> within (took m a) s.
Proof. apply within_le; [reflexivity|]. unfold took. cbn [m_buf set_buf]. rewrite app_length. lia. Qed.
Theorem x_feed_tidy m text o m' : inv m -> tidy m -> x_feed gz m text = (o, m') -> o <> Diverge -> tidy m'.
Proof.
  intros Hi Hy H Ho. destruct o as [t|e|]; [| |contradiction].
  - apply (feed_tidy gz m text m' t Hi Hy). rewrite <- x_feed_plain by exact Hi. rewrite H. reflexivity.
  - apply feed_raise in H; [|exact Hi]. destruct H as [(a & lost & m1 & h' & H)|[(a & lost & m1 & h' & H)|(-> & _)]]; [| |exact Hy].
    + destruct H as (_ & F & _ & R & ->). apply feed_tidy in F; auto. destruct F as (G & Fi & C0 & St & Bo & En). destruct (refused_head _ _ _ _ R) as (K1 & K2 & K3 & K4).
      split; [exact (good_same _ _ K1 K2 K3 G)|]. split; [apply (within_took m1 (slack m1) [LF] Fi)|]. split; [exact C0|]. split; [intro X; cbn; rewrite K1; apply St, X|].
      split; [|intro X; exfalso; exact (refuses_mode _ _ _ _ R X)]. cbn. intro X. rewrite K4 by (rewrite X; discriminate). auto.
    + destruct H as (_ & F & [[Hb [Hr _]] _] & M & A & Nl & -> & X). apply feed_tidy in F; auto. destruct F as (G & Fi & C0 & St & Bo & En).
      assert (Hp : pending m1 ++ [LF] = pending m1 ++ [LF]) by reflexivity. apply header_line_good in A as [G' K]; [|exact G|apply Hb].
      split; [exact G'|]. split; [unfold filled, within; cbn; rewrite (C0 (or_intror M)); constructor|]. split; [cbn; intros [Y|Y]; discriminate|].
      split; [intros _; cbn; rewrite K; apply St; rewrite M; discriminate|]. split; [intros _; apply (begin_raise _ _ _ _ X)|discriminate].
Qed.
End G.
