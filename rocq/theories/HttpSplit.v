(** Feeding byte by byte. *)
From Verif Require Export HttpFacts.
From Coq Require Import String List Lia.
Open Scope list_scope.

(** a body that was declared chunked but is being kept as is *)
Definition fell_back (m : msg) : Prop :=
  m_mode m = Body /\ m_reader m = None /\ h_mode (m_head m) = MChunked.
(** a result whose computation met no blank line before the start line, no gzip
    body with a length and no invalid first chunk-size line *)
Definition regular (x : outcome (msg * bytes)) : Prop :=
  match x with
  | Ret (m, r) => (m_mode m = Start -> r = []) /\ ~ zipped m /\ ~ fell_back m
  | Raise e => e <> EEOFError /\ e <> EZlibError
  | Diverge => True
  end.
(** what GzipFile.read can do *)
Definition gz_ok (gz : bytes -> outcome bytes) : Prop :=
  forall b, match gz b with
            | Ret _ => True
            | Raise e => e = EOSError \/ e = EEOFError \/ e = EZlibError
            | Diverge => False
            end.
Definition hinv (m : msg) : Prop :=
  bwf m /\ (m_mode m = Start \/ m_mode m = Headers -> m_reader m = None) /\
  (forall c s r, m_reader m = Some (RChunk c s r) -> h_mode (m_head m) = MChunked /\ (c = CStart \/ s = false)) /\ (m_reader m <> None -> has_body (m_head m) = true).
Definition live (m : msg) : Prop := m_mode m = Start \/ m_mode m = Headers \/ m_mode m = Body.

Lemma split_once_cons sep c t : c <> sep -> split_once sep (c :: t) =
  match split_once sep t with Some (a, b) => Some (c :: a, b) | None => None end.
Proof. intro H. cbn [split_once]. replace (N.eqb c sep) with false by (symmetry; apply N.eqb_neq; exact H). reflexivity. Qed.
Lemma split_once_extend sep s a b x : split_once sep s = Some (a, b) -> split_once sep (s ++ x) = Some (a, b ++ x).
Proof.
  revert a b. induction s as [|c s IH]; intros a b H; [discriminate|]. cbn [app split_once] in *. destruct (N.eqb c sep); [injection H as <- <-; reflexivity|].
  destruct (split_once sep s) as [[u v]|]; [|discriminate]. injection H as <- <-. rewrite (IH _ _ eq_refl). reflexivity.
Qed.
Lemma took_pushed m c a : took (pushed m [c]) a = took m (c :: a).
Proof. unfold took, pushed, set_buf. cbn [m_buf]. rewrite <- !app_assoc. reflexivity. Qed.
Lemma pushed_pushed m c a : pushed (pushed m [c]) a = pushed m (c :: a).
Proof. unfold pushed, set_buf. cbn [m_buf m_off]. rewrite <- app_assoc. reflexivity. Qed.
Lemma took_took m a b : took (took m a) b = took m (a ++ b).
Proof. unfold took, set_buf. cbn [m_buf]. rewrite <- !app_assoc. reflexivity. Qed.
Lemma no_lf_1 c : c <> LF -> no_lf' [c]. Proof. intros H [E|[]]. congruence. Qed.
Lemma set_kind_mode h k : h_mode (set_kind h k) = h_mode h. Proof. reflexivity. Qed.
Lemma trailer_keeps h line h' : add_trailer_line h line = Ret h' -> h_kind h' = h_kind h /\ h_mode h' = h_mode h.
Proof.
  unfold add_trailer_line. destruct (is_folded line).
  - destruct (fold_last _ _); try discriminate. intro H. injection H as <-. auto.
  - destruct (in_list line NEWLINES); [intro H; injection H as <-; auto|]. destruct (split_field line); try discriminate. intro H. injection H as <-. auto.
Qed.
Lemma has_body_keeps h h' : h_kind h' = h_kind h -> h_mode h' = h_mode h -> has_body h' = has_body h.
Proof. unfold has_body. intros -> ->. reflexivity. Qed.

Section G.
Variable gz : bytes -> outcome bytes.
Hypothesis Hgz : gz_ok gz.

(** one byte, then the rest *)
Definition steps (m : msg) (c : N) (t : bytes) : Prop :=
  exists x : outcome msg,
    (forall t1 t2, t = t1 ++ t2 -> base_feed gz m (c :: t1) = bind x (fun m' => base_feed gz m' t1)) /\
    (forall m', x = Ret m' -> hinv m').
Lemma steps_ret m c t m' : (forall t1 t2, t = t1 ++ t2 -> base_feed gz m (c :: t1) = base_feed gz m' t1) -> hinv m' -> steps m c t.
Proof. intros H1 H3. exists (Ret m'). split; [exact H1|]. intros m0 E. injection E as <-. exact H3. Qed.

Lemma step_start m c t : hinv m -> m_mode m = Start -> regular (base_feed gz m (c :: t)) -> steps m c t.
Proof.
  intros Hi Hm Hreg. destruct Hi as (Hb & Hr & Hc & Hh). pose proof (Hr (or_introl Hm)) as Hr0.
  destruct (N.eq_dec c LF) as [->|Hne].
  - assert (Hbf : forall t, base_feed gz m (LF :: t) = _) by (intro; apply BF_start; [exact Hm|exact Hb|discriminate]).
    rewrite Hbf in Hreg. unfold steps. 
    cbn [split_once] in *. rewrite N.eqb_refl in *. cbv zeta in *. cbn [app] in *.
    destruct (in_list (pending m ++ [LF]) NEWLINES).
    + destruct Hreg as (H1 & _). pose proof (H1 Hm) as ->. exists (Ret (took m [LF])). split; [intros t1 t2 Et; symmetry in Et; apply app_eq_nil in Et as [-> _]; cbn [bind]; rewrite Hbf, BF_nil; reflexivity|].
      intros m' E. injection E as <-. split; [apply bwf_took|]. split; [intro; exact Hr0|].
      split; [intros xc xs xr X; change (m_reader m = Some (RChunk xc xs xr)) in X; congruence|intro X; contradiction].
    + destruct (set_start_line (m_head m) (pending m ++ [LF])) as [h|e|] eqn:E.
      * exists (Ret (set_mode (set_head (took m [LF]) h) Headers)). split; [intros t1 t2 _; rewrite Hbf; reflexivity|].
        intros m' E'. injection E' as <-. split; [apply bwf_mode, bwf_head, bwf_took|]. split; [intro; exact Hr0|].
        split; [intros xc xs xr X; change (m_reader m = Some (RChunk xc xs xr)) in X; congruence|intro X; contradiction].
      * exists (Raise e). split; [intros; rewrite Hbf; reflexivity|discriminate].
      * exists Diverge. split; [intros; rewrite Hbf; reflexivity|discriminate].
  - assert (Hi' : hinv (pushed m [c])).
    { split; [apply bwf_pushed; [exact Hb|apply no_lf_1; exact Hne]|]. split; [intro; exact Hr0|]. split; assumption. }
    apply (steps_ret m c t (pushed m [c])); [|exact Hi']. intros t0 t2 _. clear Hreg t t2. rename t0 into t.
    + rewrite BF_start by (try assumption; discriminate). rewrite split_once_cons by exact Hne.
      destruct t as [|d t]; [cbn [split_once]; rewrite BF_nil; reflexivity|].
      rewrite (BF_start gz (pushed m [c]) (d :: t) Hm (proj1 Hi')) by discriminate.
      destruct (split_once LF (d :: t)) as [[a b]|]; [|rewrite pushed_pushed; reflexivity].
      rewrite pending_pushed by apply Hb. rewrite <- app_assoc, took_pushed. reflexivity.
Qed.
Lemma begin_body_step m t : hinv m -> m_mode m = Body -> m_reader m = None ->
  regular (bind (begin_body gz m t) (fun m2 => base_feed gz m2 t)) ->
  exists x, (forall t', begin_body gz m t' = x) /\ forall m', x = Ret m' -> hinv m'.
Proof.
  intros (Hb & Hr & Hc & Hh) Hm Hn Hreg. unfold begin_body in *.
  destruct (has_body (m_head m)) eqn:Ehb; cbn [negb] in *.
  2:{ eexists. split; [reflexivity|]. intros m' E. injection E as <-.
      split; [apply bwf_mode; exact Hb|]. split; [intros [X|X]; discriminate|]. split; [exact Hc|intro X; contradiction]. }
  destruct (body_is_chunked (m_head m)) eqn:Ech.
  { eexists. split; [reflexivity|]. intros m' E. injection E as <-.
    split; [apply bwf_creader; exact Hb|]. split; [cbn; rewrite Hm; intros [X|X]; discriminate|]. split; [|intro; exact Ehb].
    intros xc xs xr X. injection X as <- _ _. unfold body_is_chunked in Ech. cbn. destruct (h_mode (m_head m)); try discriminate. auto. }
  destruct (body_length (m_head m)) as [n|] eqn:El.
  - destruct (match h_encoding (m_head m) with Some e => endswith (B "gzip") e | None => false end).
    + exfalso. unfold zip_reader in Hreg. pose proof (Hgz (py_take n t)) as G. destruct (gz (py_take n t)) as [d|e|]; [|destruct e; try (destruct G as [G|[G|G]]; discriminate)|contradiction].
      * cbn [bind reader_remaining] in Hreg.
        match type of Hreg with regular (base_feed _ ?m2 _) => assert (Hz : m_reader m2 = Some (RZip (Some d) (Z.of_nat (List.length d)))) by (destruct (Z.of_nat (List.length d) =? 0)%Z; reflexivity);
          assert (Hmm : m_mode m2 = Body \/ m_mode m2 = End) by (destruct (Z.of_nat (List.length d) =? 0)%Z; auto); set (M := m2) in * end. clearbody M.
        destruct Hmm as [Hmm|Hmm]; [|rewrite BF_done in Hreg by auto; destruct Hreg as (_ & Z & _); apply Z; eexists _, _; exact Hz].
        destruct t as [|c t]; [rewrite BF_nil in Hreg; destruct Hreg as (_ & Z & _); apply Z; eexists _, _; exact Hz|].
        rewrite BF_body in Hreg by (try exact Hmm; discriminate). unfold feed_body in Hreg. rewrite Hz in Hreg. unfold zip_feed in Hreg.
        destruct (if (0 <? _)%Z then _ else _) as [[r1 t1] m1]. destruct Hreg as (_ & Z & _). apply Z. eexists _, r1. destruct (r1 <=? 0)%Z; reflexivity.
      * destruct Hreg as [X _]; congruence.
      * cbn [bind reader_remaining] in Hreg.
        match type of Hreg with regular (base_feed _ ?m2 _) => assert (Hz : m_reader m2 = Some (RZip None (Z.of_nat (List.length t)))) by (destruct (Z.of_nat (List.length t) =? 0)%Z; reflexivity);
          assert (Hmm : m_mode m2 = Body \/ m_mode m2 = End) by (destruct (Z.of_nat (List.length t) =? 0)%Z; auto); set (M := m2) in * end. clearbody M.
        destruct Hmm as [Hmm|Hmm]; [|rewrite BF_done in Hreg by auto; destruct Hreg as (_ & Z & _); apply Z; eexists _, _; exact Hz].
        destruct t as [|c t]; [rewrite BF_nil in Hreg; destruct Hreg as (_ & Z & _); apply Z; eexists _, _; exact Hz|].
        rewrite BF_body in Hreg by (try exact Hmm; discriminate). unfold feed_body in Hreg. rewrite Hz in Hreg. unfold zip_feed in Hreg.
        destruct (if (0 <? _)%Z then _ else _) as [[r1 t1] m1]. destruct Hreg as (_ & Z & _). apply Z. eexists _, r1. destruct (r1 <=? 0)%Z; reflexivity.
      * destruct Hreg as [_ X]; congruence.
    + eexists. split; [reflexivity|]. cbn [bind reader_remaining]. intros m' E. injection E as <-.
      assert (Q : forall x, x = End \/ x = Body -> hinv (mkmsg (m_buf m) (m_off m) (m_head m) [(m_off m, n)] x (Some (RLength n)) (m_interim m))).
      { intros x Hx. split; [apply (bwf_same m); [reflexivity|reflexivity|exact Hb]|]. split; [cbn; intros [X|X]; destruct Hx; congruence|].
        split; [intros xc xs xr X; discriminate|intro; exact Ehb]. }
      destruct (n =? 0)%Z; [apply (Q End); auto|]. cbn. unfold set_chunks, set_reader. cbn. rewrite Hm. apply Q. auto.
  - eexists. split; [reflexivity|]. intros m' E. injection E as <-.
    split; [apply bwf_reader, bwf_chunks; exact Hb|]. split; [cbn; rewrite Hm; intros [X|X]; discriminate|].
    split; [intros xc xs xr X; discriminate|intro X; contradiction].
Qed.
Lemma header_line_kind h line h' : add_header_line h line = Ret h' -> in_list line NEWLINES = false -> h_kind h' = h_kind h /\ h_mode h' = h_mode h.
Proof.
  unfold add_header_line. intros H Hn. rewrite Hn in H. destruct (is_folded line).
  - destruct (fold_last _ _); try discriminate. injection H as <-. auto.
  - destruct (split_field line); try discriminate. injection H as <-. auto.
Qed.
Lemma step_headers m c t : hinv m -> m_mode m = Headers -> regular (base_feed gz m (c :: t)) -> steps m c t.
Proof.
  intros Hi Hm Hreg. destruct Hi as (Hb & Hr & Hc & Hh). pose proof (Hr (or_intror Hm)) as Hr0.
  destruct (N.eq_dec c LF) as [->|Hne].
  - assert (Hbf : forall t, base_feed gz m (LF :: t) = _) by (intro; apply BF_headers; [exact Hm|exact Hb|discriminate]).
    rewrite Hbf in Hreg. unfold steps. 
    cbn [split_once] in *. rewrite N.eqb_refl in *. cbv zeta in *. cbn [app] in *.
    destruct (add_header_line (m_head m) (pending m ++ [LF])) as [h|e|] eqn:E.
    + cbn [bind] in *. set (m1 := set_head (took m [LF]) h) in *.
      assert (Hi1 : forall x, hinv (set_mode m1 x)).
      { intro x. split; [apply bwf_mode, bwf_head, bwf_took|]. split; [intro; exact Hr0|].
        split; [intros xc xs xr X; change (m_reader m = Some (RChunk xc xs xr)) in X; congruence|intro X; contradiction]. }
      destruct (in_list (pending m ++ [LF]) NEWLINES).
      * destruct (begin_body_step (set_mode m1 Body) t (Hi1 Body) eq_refl Hr0 Hreg) as (x & E1 & Hx).
        exists x. split; [|exact Hx]. intros t1 t2 _. rewrite Hbf, E1. reflexivity.
      * exists (Ret m1). split; [intros t1 t2 _; rewrite Hbf; reflexivity|].
        intros m' E'. injection E' as <-. specialize (Hi1 Headers). replace (set_mode m1 Headers) with m1 in Hi1; [exact Hi1|].
        unfold set_mode, m1, set_head, took, set_buf. cbn. rewrite Hm. reflexivity.
    + exists (Raise e). split; [intros; rewrite Hbf; reflexivity|discriminate].
    + exists Diverge. split; [intros; rewrite Hbf; reflexivity|discriminate].
  - assert (Hi' : hinv (pushed m [c])).
    { split; [apply bwf_pushed; [exact Hb|apply no_lf_1; exact Hne]|]. split; [intro; exact Hr0|]. split; assumption. }
    apply (steps_ret m c t (pushed m [c])); [|exact Hi']. intros t0 t2 _. clear Hreg t t2. rename t0 into t.
    + rewrite BF_headers by (try assumption; discriminate). rewrite split_once_cons by exact Hne.
      destruct t as [|d t]; [cbn [split_once]; rewrite BF_nil; reflexivity|].
      rewrite (BF_headers gz (pushed m [c]) (d :: t) Hm (proj1 Hi')) by discriminate.
      destruct (split_once LF (d :: t)) as [[a b]|]; [|rewrite pushed_pushed; reflexivity].
      rewrite pending_pushed by apply Hb. rewrite <- app_assoc, took_pushed. reflexivity.
Qed.

(** *** the chunk reader *)
Definition cf_result (m : msg) (text : bytes) (x : outcome (option (msg * bytes))) : outcome (msg * bytes) :=
  bind x (fun o => match o with
    | Some p => Ret p
    | None => raw_body (set_chunks (set_reader m None) [(List.length (m_buf m), 0%Z)]) text end).
Lemma BF_chunk m text : m_mode m = Body -> is_chunk m -> base_feed gz m text = cf_result m text (CF m text).
Proof.
  intros Hm (c & s & r & Hr). destruct text as [|x t]; [rewrite BF_nil; reflexivity|].
  rewrite BF_body by (try exact Hm; discriminate). unfold feed_body. rewrite Hr. reflexivity.
Qed.
Lemma flag_keeps m1 text1 m2 t2 : (exists c r, m_reader m1 = Some (RChunk c false r)) -> bwf m1 -> rest_pass m1 text1 = Ret (Some (m2, t2)) ->
  exists c r, m_reader m2 = Some (RChunk c false r).
Proof.
  clear. intros (c & r & Hr) Hb E. destruct text1 as [|x t] eqn:Et; [rewrite rest_nil in E; injection E as <- <-; eauto|]. rewrite <- Et in *.
  unfold rest_pass in E. rewrite Hr in E. replace (empty_text text1) with false in E by (rewrite Et; reflexivity).
  destruct c; cbn [bind] in E.
  - rewrite Hr in E. injection E as <- <-. eauto.
  - destruct (chunk_chunk m1 false r text1) as [m3 t3] eqn:Ec.
    assert (Q : exists c, (c = CStart \/ c = CChunk) /\ exists r, m_reader m3 = Some (RChunk c false r)).
    { unfold chunk_chunk in Ec. destruct (if (0 <? r)%Z then _ else _) as [[r1 t1] m1']. destruct (r1 =? 0)%Z.
      - destruct (feed_line m1' t1) as [[[l|] t4] m4]; injection Ec as <- <-; eexists; split; [|eexists; reflexivity| |eexists; reflexivity]; auto.
      - injection Ec as <- <-. eexists; split; [|eexists; reflexivity]; auto. }
    destruct Q as (c & [-> | ->] & r' & Hr'); rewrite Hr' in E; injection E as <- <-; eauto.
  - rewrite Hr in E. replace (empty_text text1) with false in E by (rewrite Et; reflexivity). rewrite chunk_trailer_eq in E by exact Hb. destruct (split_once LF text1) as [[a b]|].
    + cbv zeta in E. destruct (add_trailer_line _ _); try discriminate. cbn [bind] in E. injection E as <- <-. eexists _, _. reflexivity.
    + cbn [bind] in E. injection E as <- <-. exists CTrailer, r. exact Hr.
  - rewrite Hr in E. injection E as <- <-. eauto.
Qed.
Lemma rest_not_none m text : rest_pass m text <> Ret None.
Proof.
  unfold rest_pass. destruct (match m_reader m with Some (RChunk CChunk st r) => _ | _ => _ end) as [m2 t2].
  destruct (m_reader m2) as [[[] s r|r|z r]|]; try discriminate. destruct (empty_text t2); [discriminate|].
  destruct (chunk_trailer m2 s r t2); discriminate.
Qed.
Lemma CF_not_none m text : (exists c r, m_reader m = Some (RChunk c false r)) -> bwf m -> CF m text <> Ret None.
Proof.
  unfold CF. generalize (S (List.length text)). intro f. revert m text.
  induction f as [|f IH]; intros m text (c & r & Hr) Hb H; [discriminate|]. cbn [chunk_feed] in H. destruct text as [|x t] eqn:Et; [discriminate|]. rewrite <- Et in *.
  assert (Hp : chunk_pass m text <> Ret None /\ forall m' t', chunk_pass m text = Ret (Some (m', t')) -> exists c r, m_reader m' = Some (RChunk c false r)).
  { destruct (match c with CStart => true | _ => false end) eqn:Ec.
    - destruct c; try discriminate. rewrite (pass_start _ _ _ _ Hr), chunk_start_eq by exact Hb. destruct (split_once LF text) as [[a b]|].
      + destruct (chunk_size _) as [n|]; [|split; [discriminate|discriminate]]. cbn [bind]. split; [apply rest_not_none|].
        intros m' t' E. apply flag_keeps in E; [exact E|eexists _, _; reflexivity|apply bwf_creader, bwf_chunks, bwf_took].
      + cbn [bind]. rewrite rest_nil. split; [discriminate|]. intros m' t' E. injection E as <- <-. eexists _, _. reflexivity.
    - rewrite (pass_other _ _ _ _ _ Hr) by (intros ->; discriminate). split; [apply rest_not_none|]. intros m' t' E. apply flag_keeps in E; eauto. }
  destruct Hp as [Hp1 Hp2]. destruct (chunk_pass m text) as [[[m' t']|]| |] eqn:E; cbn [bind] in H; try discriminate; [|contradiction].
  destruct (Hp2 _ _ eq_refl) as (c' & r' & Hr').
  assert (Ht : text <> []) by (rewrite Et; discriminate).
  destruct (pass_shrinks _ _ _ _ Hb ltac:(exists c, false, r; exact Hr) Ht E) as (Hb' & _ & _).
  rewrite Hr' in H. destruct c'; try (apply IH in H; [exact H|eauto|exact Hb']). discriminate.
Qed.
(** with the flag off the message text plays no role *)
Lemma BF_chunk_off m text : m_mode m = Body -> (exists c r, m_reader m = Some (RChunk c false r)) -> bwf m ->
  base_feed gz m text = bind (CF m text) (fun o => match o with Some p => Ret p | None => Diverge end).
Proof.
  intros Hm Hf Hb. rewrite BF_chunk; [|exact Hm|destruct Hf as (c & r & Hr); exists c, false, r; exact Hr].
  pose proof (CF_not_none m text Hf Hb). destruct (CF m text) as [[p|]| |]; try reflexivity. contradiction.
Qed.
Lemma hinv_chunk m c r : bwf m -> m_mode m = Body -> h_mode (m_head m) = MChunked -> has_body (m_head m) = true ->
  hinv (set_creader m c false r).
Proof.
  intros Hb Hm Hc Hh. split; [apply bwf_creader; exact Hb|]. split; [cbn; rewrite Hm; intros [X|X]; discriminate|].
  split; [|intro; exact Hh]. intros xc xs xr X. injection X as _ <- _. auto.
Qed.
Lemma creader_eta m c s r : m_reader m = Some (RChunk c s r) -> set_creader m c s r = m.
Proof. intro H. unfold set_creader, set_reader. rewrite <- H. apply msg_eta. Qed.
Definition off_result (x : outcome (option (msg * bytes))) : outcome (msg * bytes) :=
  bind x (fun o => match o with Some p => Ret p | None => Diverge end).
Lemma steps_chunk m c t m' : m_mode m = Body -> (exists k r, m_reader m = Some (RChunk k false r)) -> bwf m ->
  (exists k r, m_reader m' = Some (RChunk k false r)) -> m_mode m' = Body -> hinv m' ->
  (forall t, CF m (c :: t) = CF m' t) -> steps m c t.
Proof.
  intros Hm Hf Hb Hf' Hm' Hi' E1. apply (steps_ret m c t m').
  - intros t1 t2 _. rewrite !BF_chunk_off by (try assumption; apply Hi'). rewrite E1. reflexivity.
  - exact Hi'.
Qed.
Lemma step_chunk m c t k s r : hinv m -> m_mode m = Body -> m_reader m = Some (RChunk k s r) -> k <> CEnd ->
  regular (base_feed gz m (c :: t)) -> steps m c t.
Proof.
  intros (Hb & Hr & Hc & Hh) Hm Hrd Hk Hreg. destruct (Hc _ _ _ Hrd) as [Hmc Hflag]. pose proof (Hh ltac:(congruence)) as Hbody.
  destruct k; [|destruct Hflag as [X| ->]; [discriminate|]..].
  - (* size line *)
    assert (Hcf : forall t, CF m (c :: t) = match split_once LF (c :: t) with
      | Some (a, b) => match chunk_size (pending m ++ a ++ [LF]) with None => if s then Ret None else Raise EValueError | Some n => CF (size_read m a n) b end
      | None => Ret (Some (set_creader (pushed m (c :: t)) CStart false r, [])) end) by (intro; apply CF_start; [exact Hb|exact Hrd|discriminate]).
    assert (Hfb : forall t1 t2, t = t1 ++ t2 -> CF m (c :: t1) = Ret None -> False).
    { intros t1 t2 Et E0. assert (E : CF m (c :: t) = Ret None).
      { rewrite Hcf in E0. rewrite Hcf, Et. destruct (split_once LF (c :: t1)) as [[a b]|] eqn:Es; [|discriminate].
        change (c :: t1 ++ t2) with ((c :: t1) ++ t2). rewrite (split_once_extend _ _ _ _ t2 Es).
        destruct (chunk_size (pending m ++ a ++ [LF])) as [n|]; [|exact E0].
        exfalso. apply (CF_not_none (size_read m a n) b) in E0; [exact E0|eexists _, _; reflexivity|apply bwf_creader, bwf_chunks, bwf_took]. } rewrite BF_chunk in Hreg by (try exact Hm; eexists _, _, _; exact Hrd). rewrite E in Hreg. cbn in Hreg.
      destruct Hreg as (_ & _ & X). apply X. split; [exact Hm|]. split; [reflexivity|exact Hmc]. }
    destruct (N.eq_dec c LF) as [->|Hne].
    + assert (Hs : forall t, split_once LF (LF :: t) = Some ([], t)) by reflexivity.
      destruct (chunk_size (pending m ++ [] ++ [LF])) as [n|] eqn:En.
      * assert (Hi' : hinv (size_read m [] n)).
        { apply hinv_chunk; [apply bwf_chunks, bwf_took|exact Hm|exact Hmc|exact Hbody]. }
        apply (steps_ret m LF t (size_read m [] n)); [|exact Hi'].
        -- intros t0 t2 _. clear Hfb Hreg t t2. rename t0 into t. rewrite BF_chunk by (try exact Hm; eexists _, _, _; exact Hrd). rewrite (BF_chunk_off (size_read m [] n)) by (try exact Hm; try apply Hi'; eexists _, _; reflexivity).
           rewrite Hcf, Hs, En. pose proof (CF_not_none (size_read m [] n) t ltac:(eexists _, _; reflexivity) (proj1 Hi')) as Z.
           destruct (CF (size_read m [] n) t) as [[p|]| |]; try reflexivity. contradiction.
      * specialize (Hfb t [] (eq_sym (app_nil_r t))). rewrite Hcf, Hs, En in Hfb. destruct s; [contradiction (Hfb eq_refl)|].
        exists (Raise EValueError). split; [|discriminate]. intros t1 t2 _. rewrite !BF_chunk by (try exact Hm; eexists _, _, _; exact Hrd). rewrite !Hcf, !Hs, En. reflexivity.
    + set (m' := set_creader (pushed m [c]) CStart false r).
      assert (Hi' : hinv m') by (apply hinv_chunk; [apply bwf_pushed; [exact Hb|apply no_lf_1; exact Hne]|exact Hm|exact Hmc|exact Hbody]).
      assert (E2 : forall t1 t2, t = t1 ++ t2 -> CF m (c :: t1) = CF m' t1).
      { intros t1 t2 Et. specialize (Hfb t1 t2 Et). clear Hreg Et t t2. rename t1 into t. rewrite Hcf in *. rewrite split_once_cons in * by exact Hne. destruct t as [|d t]; [reflexivity|].
        rewrite (CF_start m' false r (d :: t) (proj1 Hi') eq_refl) by discriminate.
        destruct (split_once LF (d :: t)) as [[a b]|].
        - replace (pending m') with (pending m ++ [c]) by (symmetry; apply (pending_pushed m [c]); apply Hb). rewrite <- app_assoc. cbn [app] in *.
          destruct (chunk_size (pending m ++ c :: a ++ [LF])) as [n|].
          + f_equal. unfold size_read, m'. change (took (set_creader (pushed m [c]) CStart false r) (a ++ [LF])) with (set_creader (took (pushed m [c]) (a ++ [LF])) CStart false r).
            rewrite took_pushed. reflexivity.
          + destruct s; [contradiction (Hfb eq_refl)|reflexivity].
        - f_equal. f_equal. f_equal. unfold m'. change (pushed (set_creader (pushed m [c]) CStart false r) (d :: t)) with (set_creader (pushed (pushed m [c]) (d :: t)) CStart false r).
          rewrite pushed_pushed. reflexivity. }
      apply (steps_ret m c t m'); [|exact Hi'].
      * intros t1 t2 Et. rewrite BF_chunk by (try exact Hm; eexists _, _, _; exact Hrd). rewrite (BF_chunk_off m') by (try exact Hm; try apply Hi'; eexists _, _; reflexivity).
        rewrite (E2 t1 t2 Et). pose proof (CF_not_none m' t1 ltac:(eexists _, _; reflexivity) (proj1 Hi')) as Z. destruct (CF m' t1) as [[p|]| |]; try reflexivity. contradiction.
  - (* chunk data *)
    assert (Hf : exists k r, m_reader m = Some (RChunk k false r)) by eauto.
    destruct (Z_lt_le_dec r 0) as [Hn|Hn].
    { exists Diverge. split; [|discriminate]. intros t1 t2 _. rewrite !BF_chunk_off by assumption. assert (Hst : stuck m) by (exists false, r; auto).
      rewrite !CF_stuck by (try exact Hst; discriminate). reflexivity. }
    destruct (Z.eq_dec r 0) as [->|Hr0].
    + destruct (N.eq_dec c LF) as [->|Hne].
      * apply (steps_chunk m LF t (set_creader (took m [LF]) CStart false 0)); try assumption; try (eexists _, _; reflexivity).
        -- apply hinv_chunk; [apply bwf_took|exact Hm|exact Hmc|exact Hbody].
        -- intro t0. rewrite (CF_chunk_end m false (LF :: t0) Hb Hrd) by discriminate. reflexivity.
      * assert (Hi' : hinv (set_creader (pushed m [c]) CChunk false 0)) by (apply hinv_chunk; [apply bwf_pushed; [exact Hb|apply no_lf_1; exact Hne]|exact Hm|exact Hmc|exact Hbody]).
        apply (steps_chunk m c t (set_creader (pushed m [c]) CChunk false 0)); try assumption; try (eexists _, _; reflexivity).
        -- intro t0. clear Hreg t. rename t0 into t. rewrite (CF_chunk_end m false (c :: t) Hb Hrd) by discriminate. rewrite split_once_cons by exact Hne. destruct t as [|d t]; [reflexivity|].
           rewrite (CF_chunk_end (set_creader (pushed m [c]) CChunk false 0) false (d :: t) (proj1 Hi') eq_refl) by discriminate.
           destruct (split_once LF (d :: t)) as [[a b]|].
           ++ f_equal. change (took (set_creader (pushed m [c]) CChunk false 0) (a ++ [LF])) with (set_creader (took (pushed m [c]) (a ++ [LF])) CChunk false 0). rewrite took_pushed. reflexivity.
           ++ do 3 f_equal. change (pushed (set_creader (pushed m [c]) CChunk false 0) (d :: t)) with (set_creader (pushed (pushed m [c]) (d :: t)) CChunk false 0). rewrite pushed_pushed. reflexivity.
    + set (m' := set_creader (took m [c]) CChunk false (r - 1)).
      assert (Hi' : hinv m') by (apply hinv_chunk; [apply bwf_took|exact Hm|exact Hmc|exact Hbody]).
      assert (G : forall t, CF m (c :: t) = CF m' t).
      { intro t0. destruct (Z_lt_le_dec (Z.of_nat (List.length (c :: t0))) r) as [Hl|Hl].
        - rewrite (CF_chunk_short m false r (c :: t0) Hb Hrd) by (try discriminate; exact Hl). destruct t0 as [|d t0].
          + cbn [List.length]. rewrite CF_nil. reflexivity.
          + rewrite (CF_chunk_short m' false (r - 1) (d :: t0) (proj1 Hi') eq_refl) by (try discriminate; cbn [List.length] in *; lia).
            do 3 f_equal. unfold m'. change (took (set_creader (took m [c]) CChunk false (r - 1)) (d :: t0)) with (set_creader (took (took m [c]) (d :: t0)) CChunk false (r - 1)).
            rewrite took_took. cbn [app]. unfold set_creader, set_reader. cbn. do 3 f_equal. lia.
        - set (a := firstn (Z.to_nat (r - 1)) t0). set (b := skipn (Z.to_nat (r - 1)) t0).
          assert (Et : t0 = a ++ b) by (symmetry; apply firstn_skipn).
          assert (La : List.length a = Z.to_nat (r - 1)) by (unfold a; rewrite firstn_length; cbn [List.length] in Hl; lia).
          rewrite Et. change (c :: a ++ b) with ((c :: a) ++ b).
          rewrite (CF_chunk_full m false (c :: a) b Hb); [|rewrite Hrd; do 2 f_equal; cbn [List.length]; lia|discriminate].
          destruct a as [|d a'] eqn:Ea.
          + cbn [app]. unfold m'. replace (r - 1)%Z with 0%Z by (cbn in La; lia). reflexivity.
          + rewrite <- Ea in *. assert (Ha : a <> []) by (rewrite Ea; discriminate).
            rewrite (CF_chunk_full m' false a b (proj1 Hi')); [|cbn; do 2 f_equal; lia|exact Ha].
            f_equal. unfold m'. change (took (set_creader (took m [c]) CChunk false (r - 1)) a) with (set_creader (took (took m [c]) a) CChunk false (r - 1)). rewrite took_took. reflexivity. }
      apply (steps_chunk m c t m'); try assumption; try (eexists _, _; reflexivity).
  - (* trailer *)
    assert (Hf : exists k r, m_reader m = Some (RChunk k false r)) by eauto.
    assert (Hcf : forall t, CF m (c :: t) = _) by (intro; apply (CF_trailer m false r (c :: t0) Hb Hrd); discriminate).
    destruct (N.eq_dec c LF) as [->|Hne].
    + assert (Hbf : forall t, base_feed gz m (LF :: t) = bind (add_trailer_line (m_head m) (pending m ++ [LF])) (fun h =>
        base_feed gz (let m1 := set_head (took m [LF]) h in
          if in_list (pending m ++ [LF]) NEWLINES then set_mode (set_creader m1 CEnd false r) End else set_creader m1 CTrailer false r) t)).
      { intro t0. rewrite BF_chunk_off, Hcf by assumption. cbn [split_once app]. rewrite N.eqb_refl. cbv zeta. cbn [app].
        destruct (add_trailer_line (m_head m) (pending m ++ [LF])) as [h|e|] eqn:E; [|reflexivity..]. cbn [bind].
        destruct (in_list (pending m ++ [LF]) NEWLINES); [rewrite BF_done by auto; reflexivity|].
        rewrite BF_chunk_off; [reflexivity|exact Hm|eexists _, _; reflexivity|apply bwf_creader, bwf_head, bwf_took]. }
      exists (bind (add_trailer_line (m_head m) (pending m ++ [LF])) (fun h => Ret (let m1 := set_head (took m [LF]) h in
          if in_list (pending m ++ [LF]) NEWLINES then set_mode (set_creader m1 CEnd false r) End else set_creader m1 CTrailer false r))).
      split; [intros t1 t2 _; rewrite Hbf; destruct (add_trailer_line _ _); reflexivity|].
      destruct (add_trailer_line (m_head m) (pending m ++ [LF])) as [h|e|] eqn:E; [|discriminate..]. cbv zeta. cbn [bind]. intros m' E'. injection E' as <-.
      destruct (trailer_keeps _ _ _ E) as [K1 K2]. set (m1 := set_head (took m [LF]) h).
      assert (Hm1 : h_mode (m_head m1) = MChunked) by (cbn; congruence).
      assert (Hh1 : has_body (m_head m1) = true) by (cbn; rewrite (has_body_keeps _ _ K1 K2); exact Hbody).
      match goal with |- hinv (if ?b then _ else _) => destruct b end.
      * split; [apply bwf_mode, bwf_creader, bwf_head, bwf_took|]. split; [intros [X|X]; discriminate|].
        split; [|intro; exact Hh1]. intros xc xs xr X. injection X as _ <- _. auto.
      * apply hinv_chunk; [apply bwf_head, bwf_took|exact Hm|exact Hm1|exact Hh1].
    + assert (Hi' : hinv (pushed m [c])).
      { split; [apply bwf_pushed; [exact Hb|apply no_lf_1; exact Hne]|]. split; [exact Hr|]. split; assumption. }
      apply (steps_chunk m c t (pushed m [c])); try assumption. intro t0. clear Hreg t. rename t0 into t. rewrite Hcf, split_once_cons by exact Hne.
      destruct t as [|d t]; [reflexivity|]. rewrite (CF_trailer (pushed m [c]) false r (d :: t) (proj1 Hi') Hrd) by discriminate.
      destruct (split_once LF (d :: t)) as [[a b]|]; [|rewrite pushed_pushed; reflexivity].
      rewrite pending_pushed by apply Hb. rewrite <- app_assoc, took_pushed. reflexivity.
  - congruence.
Qed.
(** *** the other bodies *)
Definition refuses (m : msg) (c : N) : Prop := exists m', (forall t, base_feed gz m (c :: t) = Ret (m', c :: t)) /\ bwf m'.
Lemma BF_length m r text : m_mode m = Body -> m_reader m = Some (RLength r) -> text <> [] -> base_feed gz m text = Ret (length_feed m r text).
Proof. intros Hm Hr Ht. rewrite BF_body by assumption. unfold feed_body. rewrite Hr. reflexivity. Qed.
Lemma length_feed_pos m r text : (0 < r)%Z -> length_feed m r text =
  (let m2 := set_reader (took m (firstn (Z.to_nat r) text)) (Some (RLength (r - Z.of_nat (List.length (firstn (Z.to_nat r) text))))) in
   if (r <=? Z.of_nat (List.length text))%Z then set_mode m2 End else m2, skipn (Z.to_nat r) text).
Proof.
  intro H. unfold length_feed. replace (0 <? r)%Z with true by (symmetry; apply Z.ltb_lt; exact H). rewrite took_firstn by exact H. cbv zeta. f_equal.
  replace (r - Z.of_nat (List.length (firstn (Z.to_nat r) text)) <=? 0)%Z with (r <=? Z.of_nat (List.length text))%Z; [reflexivity|].
  rewrite firstn_length. destruct (Z.leb_spec r (Z.of_nat (List.length text))); symmetry; [apply Z.leb_le|apply Z.leb_gt]; lia.
Qed.
Lemma step_length m c t r : hinv m -> m_mode m = Body -> m_reader m = Some (RLength r) -> steps m c t \/ refuses m c.
Proof.
  intros (Hb & Hr & Hc & Hh) Hm Hrd. destruct (Z_le_gt_dec r 0) as [Hn|Hn].
  - right. eexists. split; [|apply bwf_mode, (bwf_reader m); exact Hb]. intro t0. rewrite (BF_length m r) by (try assumption; discriminate). unfold length_feed.
    replace (0 <? r)%Z with false by (symmetry; apply Z.ltb_ge; exact Hn). replace (r <=? 0)%Z with true by (symmetry; apply Z.leb_le; exact Hn). reflexivity.
  - left. set (m' := let m2 := set_reader (took m [c]) (Some (RLength (r - 1))) in if (r =? 1)%Z then set_mode m2 End else m2).
    apply (steps_ret m c t m').
    + intros t0 t2 _. clear t t2. rewrite (BF_length m r) by (try assumption; discriminate). rewrite length_feed_pos by lia. cbv zeta.
      replace (Z.to_nat r) with (S (Z.to_nat (r - 1))) by lia. cbn [firstn skipn List.length].
      destruct (Z.eqb_spec r 1) as [->|Hr1].
      * change (Z.to_nat (1 - 1)) with 0. cbn [firstn skipn List.length]. replace (1 <=? Z.of_nat (S (List.length t0)))%Z with true by (symmetry; apply Z.leb_le; lia).
        unfold m'. cbn [Z.eqb Pos.eqb]. rewrite BF_done by auto. reflexivity.
      * assert (Em : m' = set_reader (took m [c]) (Some (RLength (r - 1)))) by (unfold m'; replace (r =? 1)%Z with false by (symmetry; apply Z.eqb_neq; exact Hr1); reflexivity).
        destruct t0 as [|d t0].
        -- rewrite BF_nil, firstn_nil, skipn_nil. cbn [List.length]. replace (r <=? Z.of_nat 1)%Z with false by (symmetry; apply Z.leb_gt; lia). rewrite Em. reflexivity.
        -- rewrite Em. rewrite (BF_length _ (r - 1)); [|exact Hm|reflexivity|discriminate]. rewrite length_feed_pos by lia. cbv zeta.
           replace (r <=? Z.of_nat (S (List.length (d :: t0))))%Z with (r - 1 <=? Z.of_nat (List.length (d :: t0)))%Z
             by (destruct (Z.leb_spec (r - 1) (Z.of_nat (List.length (d :: t0)))); symmetry; [apply Z.leb_le|apply Z.leb_gt]; lia).
           change (took (set_reader (took m [c]) (Some (RLength (r - 1)))) (firstn (Z.to_nat (r - 1)) (d :: t0)))
             with (set_reader (took (took m [c]) (firstn (Z.to_nat (r - 1)) (d :: t0))) (Some (RLength (r - 1)))).
           rewrite took_took. cbn [app].
           replace (r - Z.of_nat (S (List.length (firstn (Z.to_nat (r - 1)) (d :: t0)))))%Z with (r - 1 - Z.of_nat (List.length (firstn (Z.to_nat (r - 1)) (d :: t0))))%Z by lia.
           reflexivity.
    + assert (Q : forall x, x = End \/ x = Body -> hinv (set_mode (set_reader (took m [c]) (Some (RLength (r - 1)))) x)).
      { intros x Hx. split; [apply bwf_mode, bwf_reader, bwf_took|]. split; [cbn; intros [X|X]; destruct Hx; congruence|].
        split; [intros xc xs xr X; discriminate|]. intro X. apply Hh. rewrite Hrd. discriminate. }
      unfold m'. destruct (r =? 1)%Z; [apply (Q End); auto|]. cbv zeta. specialize (Q Body (or_intror eq_refl)). rewrite <- Hm in Q. exact Q.
Qed.
Lemma step_raw m c t : hinv m -> m_mode m = Body -> m_reader m = None -> steps m c t.
Proof.
  intros (Hb & Hr & Hc & Hh) Hm Hrd.
  assert (E : forall x t0, base_feed gz m (x :: t0) = raw_body m (x :: t0)).
  { intros x t0. rewrite BF_body by (try assumption; discriminate). unfold feed_body. rewrite Hrd. reflexivity. }
  unfold raw_body in E. destruct (m_chunks m) as [|[o n] [|q l]] eqn:Ec.
  - exists (Raise EValueError). split; [intros; apply E|discriminate].
  - set (m' := set_chunks (took m [c]) [(o, (n + 1)%Z)]). apply (steps_ret m c t m').
    + intros t0 t2 _. rewrite E. destruct t0 as [|d t0]; [rewrite BF_nil; reflexivity|].
      rewrite BF_body by (try exact Hm; discriminate). unfold feed_body. cbn [m' m_reader set_chunks took set_buf]. rewrite Hrd.
      unfold raw_body, m'. cbn [m_chunks set_chunks]. unfold took, set_buf, set_chunks. cbn [m_buf m_off m_head m_chunks m_mode m_reader m_interim].
      rewrite <- app_assoc. cbn [app]. do 3 f_equal. f_equal. f_equal. cbn [List.length]. lia.
    + split; [apply bwf_chunks, bwf_took|]. split; [exact Hr|]. split; [exact Hc|exact Hh].
  - exists (Raise EValueError). split; [intros; apply E|discriminate].
Qed.
Lemma step m c t : hinv m -> regular (base_feed gz m (c :: t)) -> steps m c t \/ refuses m c.
Proof.
  intros Hi Hreg. destruct (m_mode m) eqn:Hm.
  - left. apply step_start; assumption.
  - left. apply step_headers; assumption.
  - destruct (m_reader m) as [[k s r|r|z r]|] eqn:Hrd.
    + destruct k; try (left; eapply step_chunk; [exact Hi|exact Hm|exact Hrd|discriminate|exact Hreg]).
      right. exists (set_mode m End). split; [|apply bwf_mode, Hi]. intro t0. rewrite BF_chunk by (try exact Hm; eexists _, _, _; exact Hrd). unfold CF. cbn [chunk_feed].
      unfold chunk_pass. rewrite Hrd. cbn [bind]. rewrite Hrd, Hrd. cbn [bind]. rewrite Hrd. reflexivity.
    + apply step_length with r; assumption.
    + exfalso. rewrite BF_body in Hreg by (try exact Hm; discriminate). unfold feed_body in Hreg. rewrite Hrd in Hreg. unfold zip_feed in Hreg.
      destruct (if (0 <? _)%Z then _ else _) as [[r1 t1] m1]. destruct Hreg as (_ & Z & _). apply Z. eexists _, r1. destruct (r1 <=? 0)%Z; reflexivity.
    + left. apply step_raw; assumption.
  - right. exists m. split; [|apply Hi]. intro. apply BF_done. auto.
  - right. exists m. split; [|apply Hi]. intro. apply BF_done. auto.
Qed.
(** ** the law *)
Theorem split_law : forall a m b, hinv m -> regular (base_feed gz m (a ++ b)) ->
  base_feed gz m (a ++ b) = bind (base_feed gz m a) (fun p => match snd p with [] => base_feed gz (fst p) b | _ => Ret (fst p, snd p ++ b) end) /\
  (forall m' r, base_feed gz m a = Ret (m', r) -> bwf m' /\ (r = [] -> hinv m')).
Proof.
  induction a as [|c a IH]; intros m b Hi Hreg.
  - rewrite BF_nil. split; [reflexivity|]. intros m' r E. injection E as <- <-. split; [apply Hi|intro; exact Hi].
  - change ((c :: a) ++ b) with (c :: (a ++ b)) in *. destruct (step m c (a ++ b) Hi Hreg) as [(x & E & Hx)|(m1 & E)].
    + pose proof (E (a ++ b) [] (eq_sym (app_nil_r _))) as E1. pose proof (E a b eq_refl) as E2. rewrite E1, E2 in *.
      destruct x as [m1|e|]; cbn [bind] in *; [|split; [reflexivity|discriminate]..]. apply IH; [apply Hx; reflexivity|exact Hreg].
    + destruct E as [E Hb1]. rewrite !E. split; [reflexivity|]. intros m' r E'. injection E' as <- <-. split; [exact Hb1|discriminate].
Qed.
End G.
