(** A parser with more in front of its buffer, and with earlier body entries, behaves the
    same, also in what it raises. *)
From Verif Require Export HttpRaiseRun.
From Coq Require Import String List Lia ZArith.
Open Scope list_scope.

Definition plant (b : bytes) (old : list (nat * Z)) (ints : list hdr) (m : msg) : msg :=
  mkmsg (b ++ m_buf m) (List.length b + m_off m) (m_head m)
        (old ++ map (fun e => (List.length b + fst e, snd e)) (m_chunks m)) (m_mode m) (m_reader m) (ints ++ m_interim m).
(** a chunk reader past its first size line *)
Definition off (m : msg) : Prop := exists c r, m_reader m = Some (RChunk c false r).

Section S.
Variables (b : bytes) (old : list (nat * Z)) (ints : list hdr).
Notation P := (plant b old ints).
Definition xp {A} (x : outcome A * msg) : outcome A * msg := (fst x, P (snd x)).
Lemma pl_line m text : feed_line (P m) text = (let '(l, t, m') := feed_line m text in (l, t, P m')).
Proof.
  unfold feed_line, find_from. cbn [plant m_buf m_off]. rewrite <- app_assoc, skipn_shift.
  destruct (find_byte LF (skipn (m_off m) (m_buf m ++ text))) as [n|]; [|reflexivity].
  replace (S (List.length b + m_off m + n)) with (List.length b + S (m_off m + n)) by lia.
  rewrite firstn_shift, !skipn_shift, app_length. reflexivity.
Qed.
Lemma pl_length m text r : feed_length (P m) text r = (let '(r', t, m') := feed_length m text r in (r', t, P m')).
Proof. unfold feed_length. cbn [plant m_buf]. rewrite <- app_assoc, app_length. reflexivity. Qed.
Lemma pl_start m text : x_start (P m) text = xp (x_start m text).
Proof.
  unfold x_start. rewrite pl_line. destruct (feed_line m text) as [[[l|] t] m']; [|reflexivity].
  destruct (in_list l NEWLINES); [reflexivity|]. cbn [plant m_head]. destruct (set_start_line _ l); reflexivity.
Qed.
Lemma pl_headers f : forall m text, x_headers f (P m) text = xp (x_headers f m text).
Proof.
  induction f as [|f IH]; intros m text; [reflexivity|]. cbn [x_headers]. destruct text as [|c t]; [reflexivity|].
  rewrite pl_line. destruct (feed_line m (c :: t)) as [[[l|] t'] m']; [|apply IH]. change (m_head (P m')) with (m_head m').
  destruct (x_header_line (m_head m') l) as [[u|e|] h]; try reflexivity.
  destruct (in_list l NEWLINES); [reflexivity|]. exact (IH (set_head m' h) t').
Qed.
Lemma pl_chunk_start m s r text : x_chunk_start (P m) s r text = xp (x_chunk_start m s r text).
Proof.
  unfold x_chunk_start. rewrite pl_line. destruct (feed_line m text) as [[[l|] t] m']; [|reflexivity].
  destruct (py_int 16 _) as [n|].
  - unfold xp. cbn [fst snd]. f_equal.
    unfold set_creader, set_reader, set_chunks, plant. cbn [m_buf m_off m_head m_chunks m_mode m_reader m_interim]. rewrite map_app, app_length, <- app_assoc. reflexivity.
  - destruct s; [|reflexivity]. unfold xp. cbn [fst snd]. f_equal. unfold set_buf, plant. cbn [m_buf m_off m_head m_chunks m_mode m_reader m_interim]. rewrite app_length. reflexivity.
Qed.
Lemma pl_chunk_chunk m s r text : chunk_chunk (P m) s r text = (P (fst (chunk_chunk m s r text)), snd (chunk_chunk m s r text)).
Proof.
  unfold chunk_chunk. rewrite pl_length. destruct (0 <? r)%Z.
  - destruct (feed_length m text r) as [[r' t] m']. destruct (r' =? 0)%Z; [|reflexivity].
    rewrite pl_line. destruct (feed_line m' t) as [[[l|] t'] m'']; reflexivity.
  - destruct (r =? 0)%Z; [|reflexivity]. rewrite pl_line. destruct (feed_line m text) as [[[l|] t'] m'']; reflexivity.
Qed.
Lemma pl_trailer m s r text : x_trailer (P m) s r text = xp (x_trailer m s r text).
Proof.
  unfold x_trailer. rewrite pl_line. destruct (feed_line m text) as [[[l|] t] m']; [|reflexivity].
  change (m_head (P m')) with (m_head m'). destruct (x_trailer_line (m_head m') l) as [[u|e|] h]; reflexivity.
Qed.
Lemma pl_rest m text : x_rest (P m) text = xp (x_rest m text).
Proof.
  assert (T : forall m2 t2, match m_reader (P m2) with
    | Some (RChunk CTrailer st r) => if empty_text t2 then (Ret (Some t2), P m2) else match x_trailer (P m2) st r t2 with
         | (Ret t, m3) => (Ret (Some t), m3) | (Raise e, m3) => (Raise e, m3) | (Diverge, m3) => (Diverge, m3) end
    | _ => (Ret (Some t2), P m2) end = xp (match m_reader m2 with
    | Some (RChunk CTrailer st r) => if empty_text t2 then (Ret (Some t2), m2) else match x_trailer m2 st r t2 with
         | (Ret t, m3) => (Ret (Some t), m3) | (Raise e, m3) => (Raise e, m3) | (Diverge, m3) => (Diverge, m3) end
    | _ => (Ret (Some t2), m2) end)).
  { intros m2 t2. change (m_reader (P m2)) with (m_reader m2). destruct (m_reader m2) as [[[] s r|r|z r]|]; try reflexivity.
    destruct (empty_text t2); [reflexivity|]. rewrite pl_trailer. destruct (x_trailer m2 s r t2) as [[t|e|] m3]; reflexivity. }
  unfold x_rest. change (m_reader (P m)) with (m_reader m). destruct (m_reader m) as [[[] s r|r|z r]|]; try apply T.
  destruct (empty_text text); [apply T|]. rewrite pl_chunk_chunk. destruct (chunk_chunk m s r text) as [m2 t2]. apply T.
Qed.
Lemma x_pass_rest m text : x_pass m text =
  match (match m_reader m with Some (RChunk CStart st r) => x_chunk_start m st r text | _ => (Ret (Some text), m) end) with
  | (Ret (Some text1), m1) => x_rest m1 text1
  | x => x
  end.
Proof. unfold x_pass. destruct (match m_reader m with Some (RChunk CStart st r) => _ | _ => _ end) as [[[t|]|e|] m1]; reflexivity. Qed.
Lemma pl_pass m text : x_pass (P m) text = xp (x_pass m text).
Proof.
  rewrite !x_pass_rest. change (m_reader (P m)) with (m_reader m).
  assert (K : (match m_reader m with Some (RChunk CStart st r) => x_chunk_start (P m) st r text | _ => (Ret (Some text), P m) end) =
    xp (match m_reader m with Some (RChunk CStart st r) => x_chunk_start m st r text | _ => (Ret (Some text), m) end)).
  { destruct (m_reader m) as [[[] s r|r|z r]|]; try reflexivity. apply pl_chunk_start. }
  rewrite K. clear K. destruct (match m_reader m with Some (RChunk CStart st r) => _ | _ => _ end) as [[[t|]|e|] m1]; try reflexivity. apply pl_rest.
Qed.
Lemma pl_chunks f : forall m text, x_chunks f (P m) text = xp (x_chunks f m text).
Proof.
  induction f as [|f IH]; intros m text; [reflexivity|]. cbn [x_chunks]. destruct text as [|c t]; [reflexivity|].
  rewrite pl_pass. destruct (x_pass m (c :: t)) as [[[t'|]|e|] m']; try reflexivity. unfold xp at 1. cbn [fst snd].
  change (m_reader (P m')) with (m_reader m'). destruct (m_reader m') as [[[] s r|r|z r]|]; try reflexivity; apply IH.
Qed.
End S.

(** ** past the first size line there is no falling back *)
Lemma off_line m text l t m' : feed_line m text = (l, t, m') -> off m -> off m' /\ m_mode m' = m_mode m /\ h_kind (m_head m') = h_kind (m_head m) /\ m_head m' = m_head m.
Proof. intros E (c & r & H). apply feed_line_reader in E as (A & B & C). split; [exists c, r; congruence|]. rewrite B, C. auto. Qed.
Lemma off_rest m text o m' : x_rest m text = (o, m') -> off m -> o <> Ret None /\ off m' /\ m_mode m' = m_mode m /\ h_kind (m_head m') = h_kind (m_head m).
Proof.
  unfold x_rest. intros H (c & r & Hr). rewrite Hr in H.
  assert (K : exists m2 t2, (match c with CChunk => if empty_text text then (m, text) else chunk_chunk m false r text | _ => (m, text) end) = (m2, t2) /\ off m2 /\ m_mode m2 = m_mode m /\ h_kind (m_head m2) = h_kind (m_head m)).
  { destruct c; try (eexists _, _; split; [reflexivity|]; split; [eexists _, _; exact Hr|auto]; fail). destruct (empty_text text); [eexists _, _; split; [reflexivity|]; split; [eexists _, _; exact Hr|auto]|].
    unfold chunk_chunk. destruct (if (0 <? r)%Z then feed_length m text r else (r, text, m)) as [[r1 t1] m1] eqn:E1.
    assert (M1 : m_mode m1 = m_mode m /\ m_head m1 = m_head m) by (unfold feed_length in E1; destruct (0 <? r)%Z; injection E1 as <- <- <-; auto). destruct M1 as [M1 H1].
    destruct (r1 =? 0)%Z.
    - destruct (feed_line m1 t1) as [[[l|] t2] m2] eqn:E2; apply feed_line_reader in E2 as (_ & A & B); (eexists _, _; split; [reflexivity|]; split; [eexists _, _; reflexivity|]; cbn; split; congruence).
    - eexists _, _; split; [reflexivity|]. split; [eexists _, _; reflexivity|]. cbn. split; congruence. }
  destruct K as (m2 & t2 & E2 & (c2 & r2 & H2) & M2 & K2).
  assert (G : match m_reader m2 with
    | Some (RChunk CTrailer st r) => if empty_text t2 then (Ret (Some t2), m2) else match x_trailer m2 st r t2 with
         | (Ret t, m3) => (Ret (Some t), m3) | (Raise e, m3) => (Raise e, m3) | (Diverge, m3) => (Diverge, m3) end
    | _ => (Ret (Some t2), m2) end = (o, m')).
  { rewrite <- H. destruct c; cbn in E2; try (injection E2 as <- <-; reflexivity). destruct (empty_text text); [injection E2 as <- <-; reflexivity|]. rewrite E2. reflexivity. }
  clear H E2. rewrite H2 in G. assert (D : forall x : outcome (option bytes), (Ret (Some t2), m2) = (x, m') -> x <> Ret None /\ off m' /\ m_mode m' = m_mode m /\ h_kind (m_head m') = h_kind (m_head m)).
  { intros x X. injection X as <- <-. split; [discriminate|]. split; [eexists _, _; exact H2|]. auto. }
  destruct c2; try (apply D; exact G). destruct (empty_text t2); [apply D; exact G|]. unfold x_trailer in G.
  destruct (feed_line m2 t2) as [[[l|] t3] m3] eqn:E3; destruct (off_line _ _ _ _ _ E3 ltac:(eexists _, _; exact H2)) as ((c3 & r3 & H3) & M3 & K3 & K3').
  - unfold x_trailer_line in G. destruct (add_trailer_line (m_head m3) l) as [h|e|] eqn:Eh; injection G as <- <-; (split; [discriminate|]).
    + split; [eexists _, _; reflexivity|]. cbn. apply trailer_keeps in Eh as [Eh _]. split; congruence.
    + split; [eexists _, _; exact H3|]. cbn. split; congruence.
    + split; [eexists _, _; exact H3|]. cbn. split; congruence.
  - injection G as <- <-. split; [discriminate|]. split; [eexists _, _; exact H3|]. split; congruence.
Qed.
Lemma off_pass m text o m' : x_pass m text = (o, m') -> off m -> o <> Ret None /\ off m' /\ m_mode m' = m_mode m /\ h_kind (m_head m') = h_kind (m_head m).
Proof.
  rewrite x_pass_rest. intros H Ho. pose proof Ho as (c & r & Hr). rewrite Hr in H.
  destruct c; try (eapply off_rest; [exact H|exact Ho]).
  unfold x_chunk_start in H. destruct (feed_line m text) as [[[l|] t] m1] eqn:E; pose proof (off_line _ _ _ _ _ E Ho) as (O1 & M1 & K1 & _).
  - destruct (py_int 16 _) as [n|].
    + apply off_rest in H; [|eexists _, _; reflexivity]. destruct H as (A & B & C & D). cbn in C, D. repeat split; congruence || auto.
    + injection H as <- <-. split; [discriminate|]. auto.
  - apply off_rest in H; [|eexists _, _; reflexivity]. destruct H as (A & B & C & D). cbn in C, D. repeat split; congruence || auto.
Qed.
Lemma off_chunks f : forall m text o m', x_chunks f m text = (o, m') -> off m -> m_mode m = Body -> o <> Ret None /\ off m' /\ (m_mode m' = Body \/ m_mode m' = End) /\ h_kind (m_head m') = h_kind (m_head m).
Proof.
  induction f as [|f IH]; intros m text o m' H Ho Hm; cbn [x_chunks] in H; [injection H as <- <-; split; [discriminate|]; auto|].
  destruct text as [|c t]; [injection H as <- <-; split; [discriminate|]; auto|].
  destruct (x_pass m (c :: t)) as [o1 m1] eqn:E. apply off_pass in E; [|exact Ho]. destruct E as (A & B & C & D).
  destruct o1 as [[t1|]|e|]; [|contradiction| |].
  - assert (G : x_chunks f m1 t1 = (o, m') -> o <> Ret None /\ off m' /\ (m_mode m' = Body \/ m_mode m' = End) /\ h_kind (m_head m') = h_kind (m_head m)).
    { intro X. apply IH in X; [|exact B|congruence]. destruct X as (X1 & X2 & X3 & X4). repeat split; congruence || auto. }
    destruct (m_reader m1) as [[[] s r|r|z r]|] eqn:Er; try exact (G H). injection H as <- <-. split; [discriminate|]. destruct B as (c' & r' & B). split; [eexists _, _; cbn; exact B|]. auto.
  - injection H as <- <-. split; [discriminate|]. split; [exact B|]. split; [left; congruence|exact D].
  - injection H as <- <-. split; [discriminate|]. split; [exact B|]. split; [left; congruence|exact D].
Qed.

(** ** the whole parser *)
Definition held (m : msg) : Prop := (m_mode m = Body /\ off m \/ m_mode m = End \/ m_mode m = Incomplete) /\ status m <> Some 100%Z.
Section S2.
Variable gz : bytes -> outcome bytes.
Lemma status_kind m m' : h_kind (m_head m') = h_kind (m_head m) -> status m' = status m. Proof. unfold status. intros ->. reflexivity. Qed.
Lemma held_base m text o m' : held m -> x_base gz m text = (o, m') -> held m'.
Proof.
  intros [[[Hm Ho]|Hm] Hk] H.
  - destruct text as [|c t]; [rewrite XB_nil in H; injection H as <- <-; split; auto|]. rewrite XB_body in H by (auto; discriminate). unfold x_body in H. pose proof Ho as (k & r & Hr). rewrite Hr in H.
    destruct (x_chunks _ m (c :: t)) as [o1 m1] eqn:E. apply off_chunks in E; auto. destruct E as (A & B & C & D).
    assert (held m1) by (split; [|rewrite (status_kind m m1 D); exact Hk]; destruct C as [C|C]; auto).
    destruct o1 as [[t1|]|e|]; [|contradiction| |]; injection H as <- <-; assumption.
  - rewrite XB_done in H by exact Hm. injection H as <- <-. split; auto.
Qed.
Variables (b : bytes) (old : list (nat * Z)) (ints : list hdr).
Notation P := (plant b old ints).
Notation xp := (xp b old ints).
Lemma pl_raw m text : old = [] -> x_raw (P m) text = xp (x_raw m text).
Proof.
  intro Eo. unfold x_raw. cbn [plant m_chunks]. rewrite Eo. cbn [app]. destruct (m_chunks m) as [|[o n] [|e t]] eqn:Ec; try reflexivity. cbn [map fst snd]. unfold HttpPlant.xp. cbn [fst snd]. f_equal.
  unfold set_chunks, set_buf, plant. cbn [m_buf m_off m_head m_chunks m_mode m_reader m_interim map fst snd]. rewrite <- !app_assoc, !app_length. reflexivity.
Qed.
Lemma pl_body m text : old = [] \/ off m /\ m_mode m = Body -> x_body (P m) text = xp (x_body m text).
Proof.
  intro Hc. unfold x_body. change (m_reader (P m)) with (m_reader m). destruct (m_reader m) as [[c s r|r|z r]|] eqn:Er.
  - rewrite pl_chunks. destruct (x_chunks (S (List.length text)) m text) as [[[t'|]|e|] m'] eqn:E; try reflexivity.
    destruct Hc as [Hc|[Hc Hm]]; [|exfalso; apply off_chunks in E; auto; destruct E as (A & _); auto].
    unfold HttpPlant.xp at 1. cbn [fst snd]. rewrite <- pl_raw by exact Hc. f_equal. unfold set_chunks, set_reader, plant. cbn [m_buf m_off m_head m_chunks m_mode m_reader m_interim map fst snd]. rewrite Hc. reflexivity.
  - unfold length_feed. rewrite pl_length. destruct (0 <? r)%Z.
    + destruct (feed_length m text r) as [[r' t] m']. destruct (r' <=? 0)%Z; reflexivity.
    + destruct (r <=? 0)%Z; reflexivity.
  - unfold zip_feed. rewrite pl_length. destruct (0 <? r)%Z.
    + destruct (feed_length m _ r) as [[r' t] m']. destruct (r' <=? 0)%Z; reflexivity.
    + destruct (r <=? 0)%Z; reflexivity.
  - destruct Hc as [Hc|[(c & r & Hc) _]]; [apply pl_raw; exact Hc|congruence].
Qed.
Lemma pl_begin m text : old = [] -> x_begin gz (P m) text = xp (x_begin gz m text).
Proof.
  intro Eo. unfold x_begin, begin_body. cbn [plant m_head]. destruct (has_body (m_head m)); [|reflexivity]. cbn [negb].
  destruct (body_is_chunked _); [reflexivity|]. destruct (body_length _) as [n|]; [|unfold HttpPlant.xp, plant; cbn; rewrite Eo; reflexivity].
  set (g := match h_encoding (m_head m) with Some e => endswith (B "gzip") e | None => false end).
  destruct (if g then zip_reader gz n text else Ret (RLength n)) as [r| |]; try reflexivity. cbn [bind]. unfold HttpPlant.xp. destruct (reader_remaining r =? 0)%Z; unfold plant; cbn; rewrite Eo; reflexivity.
Qed.
Theorem x_base_plant m text : old = [] \/ held m -> x_base gz (P m) text = xp (x_base gz m text).
Proof.
  intros [Eo|[[[Hm Ho]|Hm] _]].
  - unfold x_base. change (m_mode (P m)) with (m_mode m).
    assert (K : (match m_mode m with Start => if empty_text text then (Ret text, P m) else x_start (P m) text | _ => (Ret text, P m) end) =
      xp (match m_mode m with Start => if empty_text text then (Ret text, m) else x_start m text | _ => (Ret text, m) end)).
    { destruct (m_mode m); try reflexivity. destruct (empty_text text); [reflexivity|]. apply pl_start. }
    rewrite K. clear K. destruct (match m_mode m with Start => _ | _ => _ end) as [[t1|e|] m1]; try reflexivity. unfold HttpPlant.xp at 1. cbn [fst snd]. change (m_mode (P m1)) with (m_mode m1).
    set (y := match m_mode m1 with Headers => if empty_text t1 then (Ret t1, m1) else _ | _ => _ end).
    match goal with |- match ?z with _ => _ end = _ => assert (K2 : z = xp y) end.
    { unfold y. destruct (m_mode m1) eqn:M1; try reflexivity. destruct (empty_text t1); [reflexivity|]. rewrite pl_headers. destruct (x_headers _ m1 t1) as [[t'|e|] m']; try reflexivity.
      unfold HttpPlant.xp at 1. cbn [fst snd]. change (m_mode (P m')) with (m_mode m'). destruct (m_mode m'); try reflexivity. rewrite pl_begin by exact Eo. destruct (x_begin gz m' t') as [[u|e|] m2]; reflexivity. }
    rewrite K2. destruct y as [[t2|e|] m2]; try reflexivity. unfold HttpPlant.xp at 1. cbn [fst snd]. change (m_mode (P m2)) with (m_mode m2). destruct (m_mode m2); try reflexivity.
    destruct (empty_text t2); [reflexivity|]. apply pl_body. auto.
  - destruct text as [|c t]; [rewrite !XB_nil; reflexivity|]. rewrite !XB_body by (auto; discriminate). apply pl_body. auto.
  - rewrite !XB_done by exact Hm. reflexivity.
Qed.
Definition kept (m : msg) : Prop := old = [] \/ held m.
Theorem x_feed_plant m text : kept m -> x_feed gz (P m) text = xp (x_feed gz m text) /\ kept (snd (x_feed gz m text)).
Proof.
  intro Hk. pose proof (x_base_plant m text Hk) as E.
  assert (K : kept (snd (x_base gz m text))). { destruct Hk as [Hk|Hk]; [left; exact Hk|right]. destruct (x_base gz m text) as [o m'] eqn:X. eapply held_base; eauto. }
  unfold x_feed. change (m_head (P m)) with (m_head m). destruct (h_kind (m_head m)); [auto|]. rewrite E. destruct (x_base gz m text) as [[t|e|] m1]; cbn [snd] in K; try (split; [reflexivity|exact K]).
  unfold HttpPlant.xp at 1. cbn [fst snd]. change (m_head (P m1)) with (m_head m1). change (complete (P m1)) with (complete m1). destruct (h_kind (m_head m1)) as [? ? ? ?|rm v c ph] eqn:Hk1; [auto|].
  destruct (complete m1 && (c =? 100)%Z) eqn:C; [|auto]. destruct K as [K|[_ K]]; [|exfalso; apply K; unfold status; rewrite Hk1; apply andb_prop in C as [_ C]; apply Z.eqb_eq in C; subst; reflexivity].
  split; [|left; exact K]. rewrite <- x_base_plant by (left; exact K). f_equal. unfold plant. cbn [m_buf m_off m_head m_chunks m_mode m_reader m_interim map]. rewrite K, app_assoc. reflexivity.
Qed.
End S2.
