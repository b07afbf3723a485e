(** Facts for C59 and C60: reading depends only on the bytes after the position, for
    every parser; the loops of the readers end. *)
From Verif Require Export WarcArchive.
From Coq Require Import String List.
Open Scope list_scope.

Ltac absurd_hyp := match goal with H : _ |- _ => exfalso; exact H end.
(** the second stream is [k] bytes further into another file that continues alike *)
Definition sim (k : nat) (st st' : stream) : Prop :=
  s_kind st' = s_kind st /\ s_eoc st' = s_eoc st /\ s_parser st' = s_parser st /\
  f_strict (s_fh st') = f_strict (s_fh st) /\ rest st' = rest st /\ pos st' = pos st + k.
Definition simr {A} (k : nat) (R : A -> A -> Prop) (x y : outcome A * stream) : Prop :=
  match fst x, fst y with
  | Ret a, Ret b => R a b /\ sim k (snd x) (snd y)
  | Raise e, Raise e' => e = e' /\ sim k (snd x) (snd y)
  | Diverge, Diverge => True
  | _, _ => False
  end.
Lemma rest_len st : length (rest st) + 2 <= file_fuel (s_fh st).
Proof. unfold rest, file_fuel. pose proof (f_rest_length (s_fh st)). lia. Qed.
Lemma sim_set_eoc k st st' e : sim k st st' -> sim k (set_eoc st e) (set_eoc st' e).
Proof. intros (H1 & H2 & H3 & H4 & H5 & H6). repeat split; assumption. Qed.
Lemma sim_set_parser k st st' p : sim k st st' -> sim k (set_parser st p) (set_parser st' p).
Proof. intros (H1 & H2 & H3 & H4 & H5 & H6). repeat split; assumption. Qed.
Lemma sim_adv k st st' n : sim k st st' -> sim k (adv st n) (adv st' n).
Proof.
  intros (H1 & H2 & H3 & H4 & H5 & H6). repeat split; try assumption.
  - rewrite !rest_adv, H5. reflexivity.
  - rewrite !pos_adv, H6. lia.
Qed.
Lemma sim_count k st st' n : sim k st st' -> sim k (count_down st n) (count_down st' n).
Proof. intros H. unfold count_down. replace (s_eoc st') with (s_eoc st) by (symmetry; apply H). apply sim_set_eoc, H. Qed.

(** *** reading *)
Lemma raw_read_all_eq st : raw_read st None = (Ret (rest st), count_down (adv st (length (rest st))) (length (rest st))).
Proof. reflexivity. Qed.
Lemma raw_read_sim k st st' c : sim k st st' -> simr k eq (raw_read st c) (raw_read st' c).
Proof.
  intros H. pose proof H as (H1 & H2 & H3 & H4 & H5 & H6). destruct c as [n|].
  - unfold raw_read, f_read, f_read_all. change (f_rest (s_fh st')) with (rest st'). change (f_rest (s_fh st)) with (rest st).
    rewrite H4, H5. destruct (n <? 0)%Z.
    + destruct ((n =? -1)%Z || negb (f_strict (s_fh st))).
      * split; [reflexivity|]. apply sim_count. apply (sim_adv k st st' (length (rest st)) H).
      * split; [reflexivity|exact H].
    + split; [reflexivity|]. apply sim_count. apply (sim_adv k st st' _ H).
  - rewrite !raw_read_all_eq, H5. split; [reflexivity|]. apply sim_count, sim_adv, H.
Qed.
Lemma bounded_sim k st st' c : sim k st st' -> bounded st' c = bounded st c.
Proof. intros (_ & H & _). unfold bounded. rewrite H. reflexivity. Qed.
Lemma stream_read_sim k st st' c : sim k st st' -> simr k eq (stream_read st c) (stream_read st' c).
Proof. intro H. unfold stream_read. rewrite (bounded_sim k st st' c H). apply raw_read_sim, H. Qed.
Definition line_of (st : stream) (c : option Z) : bytes :=
  match bounded st c with
  | Some lim => if (lim <? 0)%Z then take_line (rest st) else firstn (Z.to_nat lim) (take_line (rest st))
  | None => take_line (rest st)
  end.
Lemma readline_eq st c : stream_readline st c = (line_of st c, count_down (adv st (length (line_of st c))) (length (line_of st c))).
Proof. unfold stream_readline, line_of, f_readline_lim, f_readline, rest, adv. destruct (bounded st c); reflexivity. Qed.
Lemma line_of_length st c : length (line_of st c) <= length (rest st).
Proof.
  unfold line_of. pose proof (take_line_length (rest st)). destruct (bounded st c) as [n|]; [|assumption]. destruct (n <? 0)%Z; [assumption|].
  rewrite firstn_length. lia.
Qed.
Lemma line_of_sim k st st' c : sim k st st' -> line_of st' c = line_of st c.
Proof. intro H. unfold line_of. rewrite (bounded_sim k st st' c H). replace (rest st') with (rest st) by (symmetry; apply H). reflexivity. Qed.
Lemma readline_sim k st st' c : sim k st st' ->
  fst (stream_readline st' c) = fst (stream_readline st c) /\ sim k (snd (stream_readline st c)) (snd (stream_readline st' c)).
Proof. intro H. rewrite !readline_eq, (line_of_sim k st st' c H). split; [reflexivity|]. apply sim_count, sim_adv, H. Qed.

(** [m]: bytes not yet read, plus one for a line in hand, plus one *)
Definition m (st : stream) (line : bytes) : nat := length (rest st) + (if line then 1 else 2).
Lemma m_pos st line : 1 <= m st line. Proof. unfold m. destruct line; lia. Qed.
Lemma m_next st line : line <> [] -> m (snd (stream_readline st None)) (fst (stream_readline st None)) < m st line.
Proof.
  intro H. rewrite readline_eq. cbn [fst snd]. unfold m. change (rest (count_down ?a ?b)) with (rest a). rewrite rest_adv, skipn_length.
  pose proof (line_of_length st None). destruct line; [contradiction|]. destruct (line_of st None); cbn [length] in *; lia.
Qed.
Lemma m_sim k st st' line : sim k st st' -> m st' line = m st line.
Proof. intro H. unfold m. replace (rest st') with (rest st) by (symmetry; apply H). reflexivity. Qed.
Lemma m_fuel st line : m st line <= file_fuel (s_fh st).
Proof. unfold m. pose proof (rest_len st). destruct line; lia. Qed.

(** *** the WARC parser *)
Definition found_sim (k : nat) (x y : found) : Prop :=
  match x, y with
  | FNone (r, e, o), FNone (r', e', o') => r' = r /\ e' = e /\ o' = add_off o k
  | FVersion g o e, FVersion g' o' e' => g' = g /\ o' = add_off o k /\ e' = e
  | _, _ => False
  end.
Lemma add_off_comm o a b : add_off (add_off o a) b = add_off (add_off o b) a.
Proof. destruct o; cbn; [f_equal; lia|reflexivity]. Qed.
Lemma find_version_sim k : forall f1 f2 st st' line o errs,
  sim k st st' -> m st line <= f1 -> m st line <= f2 ->
  simr k (found_sim k) (find_version f1 st line o errs) (find_version f2 st' line (add_off o k) errs) /\
  fst (find_version f1 st line o errs) <> Diverge.
Proof.
  induction f1 as [|f1 IH]; intros f2 st st' line o errs H H1 H2; [pose proof (m_pos st line); lia|].
  destruct f2 as [|f2]; [pose proof (m_pos st line); lia|]. cbn [find_version].
  destruct line as [|c line]; [split; [split; [cbn; auto|exact H]|discriminate]|]. set (l := c :: line : bytes) in *.
  destruct (re_match version_rx l) as [g|]; [split; [split; [cbn; rewrite add_off_comm; auto|exact H]|discriminate]|].
  assert (Hnext : forall errs,
    simr k (found_sim k) (let '(line', st2) := stream_readline st None in find_version f1 st2 line' (add_off o (length l)) errs)
      (let '(line', st2) := stream_readline st' None in find_version f2 st2 line' (add_off (add_off o k) (length l)) errs) /\
    fst (let '(line', st2) := stream_readline st None in find_version f1 st2 line' (add_off o (length l)) errs) <> Diverge).
  { intro errs'. pose proof (readline_sim k st st' None H) as [E S]. pose proof (m_next st l ltac:(discriminate)) as N.
    destruct (stream_readline st None) as [a s1]. destruct (stream_readline st' None) as [a' s1']. cbn [fst snd] in *. subst a'.
    rewrite add_off_comm. apply IH; [exact S| |]; lia. }
  destruct (re_test nl_rx l); [apply Hnext|].
  destruct (Nat.ltb bad_lines _); [|apply Hnext].
  split; [split; [cbn; rewrite add_off_comm; auto|exact H]|discriminate].
Qed.
Lemma value_rx_nil : re_match value_rx [] = None. Proof. reflexivity. Qed.
Lemma follow_loop_sim k : forall f1 f2 st st' line vs errs,
  sim k st st' -> m st line <= f1 -> m st line <= f2 ->
  simr k eq (follow_loop f1 st line vs errs) (follow_loop f2 st' line vs errs) /\
  (exists vs' errs' line', fst (follow_loop f1 st line vs errs) = Ret (vs', errs', line') /\ m (snd (follow_loop f1 st line vs errs)) line' <= m st line).
Proof.
  induction f1 as [|f1 IH]; intros f2 st st' line vs errs H H1 H2; [pose proof (m_pos st line); lia|].
  destruct f2 as [|f2]; [pose proof (m_pos st line); lia|]. cbn [follow_loop].
  destruct (re_match value_rx line) as [g|] eqn:E.
  - destruct line as [|c line]; [rewrite value_rx_nil in E; discriminate|]. set (l := c :: line : bytes) in *.
    pose proof (readline_sim k st st' None H) as [E1 S]. pose proof (m_next st l ltac:(discriminate)) as N.
    destruct (stream_readline st None) as [a s1]. destruct (stream_readline st' None) as [a' s1']. cbn [fst snd] in *. subst a'.
    set (errs1 := if bytes_eqb _ _ then _ else _). set (vs1 := vs ++ _).
    destruct (IH f2 s1 s1' a vs1 errs1 S ltac:(lia) ltac:(lia)) as [X (v' & e' & l' & Y & Z)]. split; [exact X|]. exists v', e', l'. split; [exact Y|lia].
  - split; [split; [reflexivity|exact H]|]. exists vs, errs, line. split; [reflexivity|cbn; lia].
Qed.
Lemma header_loop_stuck f : forall st line hs errs cl, line <> [] -> re_test nl_rx line = false -> re_match header_rx line = None ->
  fst (header_loop f st line hs errs cl) = Diverge.
Proof.
  induction f as [|f IH]; intros st line hs errs cl H1 H2 H3; [reflexivity|]. cbn [header_loop]. destruct line; [contradiction|]. rewrite H2, H3.
  apply IH; assumption.
Qed.
Lemma header_loop_sim k : forall f1 f2 st st' line hs errs cl,
  sim k st st' -> m st line <= f1 -> m st line <= f2 ->
  simr k eq (header_loop f1 st line hs errs cl) (header_loop f2 st' line hs errs cl).
Proof.
  induction f1 as [|f1 IH]; intros f2 st st' line hs errs cl H H1 H2; [pose proof (m_pos st line); lia|].
  destruct f2 as [|f2]; [pose proof (m_pos st line); lia|]. cbn [header_loop].
  destruct line as [|c line]; [split; [reflexivity|exact H]|]. set (l := c :: line : bytes) in *.
  destruct (re_test nl_rx l) eqn:En; [split; [reflexivity|exact H]|].
  destruct (re_match header_rx l) as [g|] eqn:Eg.
  - pose proof (readline_sim k st st' None H) as [E1 S]. pose proof (m_next st l ltac:(discriminate)) as N.
    destruct (stream_readline st None) as [a s1]. destruct (stream_readline st' None) as [a' s1']. cbn [fst snd] in *. subst a'.
    set (errs1 := if bytes_eqb _ _ then _ else _). set (vs1 := [strip _]).
    destruct (follow_loop_sim k f1 f2 s1 s1' a vs1 errs1 S ltac:(lia) ltac:(lia)) as [X (v' & e' & l' & Y & Z)].
    destruct (follow_loop f1 s1 a vs1 errs1) as [o2 s2]. destruct (follow_loop f2 s1' a vs1 errs1) as [o2' s2']. cbn [fst snd] in *. subst o2.
    unfold simr in X. cbn [fst snd] in X. destruct o2' as [x| |]; [|destruct X|destruct X]. destruct X as [<- S2].
    destruct (note_header _ _ e' cl) as [e3 cl3]. apply IH; [exact S2| |]; lia.
  - unfold simr. rewrite !header_loop_stuck by (exact En || exact Eg || discriminate). exact I.
Qed.
Definition parsed_sim (k : nat) (x y : parsed) : Prop :=
  match x, y with (r, e, o), (r', e', o') => r' = r /\ e' = e /\ o' = add_off o k end.
Lemma warc_parse_fuel_sim k f1 f2 st st' o line :
  sim k st st' -> length (rest st) + 2 <= f1 -> length (rest st) + 2 <= f2 ->
  simr k (parsed_sim k) (warc_parse_fuel f1 st o (Some line)) (warc_parse_fuel f2 st' (add_off o k) (Some line)).
Proof.
  intros H H1 H2. unfold warc_parse_fuel.
  assert (Hm : forall l, m st l <= length (rest st) + 2) by (intro l; unfold m; destruct l; lia).
  destruct (find_version_sim k f1 f2 st st' line o [] H) as [X _]; [specialize (Hm line); lia ..|].
  assert (Hr : length (rest (snd (find_version f1 st line o []))) <= length (rest st)).
  { clear. revert st line o. generalize (@nil perr). induction f1 as [|f IH]; intros e st line o; [cbn; lia|]. cbn [find_version]. destruct line as [|c l]; [cbn; lia|].
    destruct (re_match version_rx (c :: l)); [cbn; lia|].
    assert (Hn : forall e o, length (rest (snd (let '(line', st2) := stream_readline st None in find_version f st2 line' o e))) <= length (rest st)).
    { intros e' o'. rewrite readline_eq. eapply Nat.le_trans; [apply IH|]. change (rest (count_down ?a ?b)) with (rest a). rewrite rest_adv, skipn_length. lia. }
    destruct (re_test nl_rx (c :: l)); [apply Hn|]. destruct (Nat.ltb _ _); [cbn; lia|apply Hn]. }
  destruct (find_version f1 st line o []) as [o1 s1]. destruct (find_version f2 st' line (add_off o k) []) as [o1' s1']. cbn [snd] in Hr.
  unfold simr in X. cbn [fst snd] in X. destruct o1 as [x|e|], o1' as [x'|e'|]; try destruct X; try exact I.
  2: { subst. split; [reflexivity|assumption]. }
  destruct x as [[[r e] p]|g p e], x' as [[[r' e'] p']|g' p' e']; cbn [found_sim] in *; try absurd_hyp; rename H3 into S.
  - destruct H0 as (-> & -> & ->). split; [cbn; auto|exact S].
  - destruct H0 as (-> & -> & ->). set (errs1 := if bytes_eqb _ _ then _ else _). destruct (in_list _ KNOWN_VERSIONS); [|split; [reflexivity|exact S]].
    set (errs2 := match group g_prefix g with [] => errs1 | _ => _ end).
    pose proof (readline_sim k s1 s1' None S) as [E1 S1].
    assert (Hr1 : length (rest (snd (stream_readline s1 None))) <= length (rest s1)).
    { rewrite readline_eq. cbn [snd]. change (rest (count_down ?a ?b)) with (rest a). rewrite rest_adv, skipn_length. lia. }
    destruct (stream_readline s1 None) as [a s2]. destruct (stream_readline s1' None) as [a' s2']. cbn [fst snd] in *. subst a'.
    assert (Hm2 : m s2 a <= length (rest st) + 2) by (unfold m; destruct a; lia).
    pose proof (header_loop_sim k f1 f2 s2 s2' a [] errs2 0%Z S1 ltac:(lia) ltac:(lia)) as Y.
    destruct (header_loop f1 s2 a [] errs2 0%Z) as [y s3]. destruct (header_loop f2 s2' a [] errs2 0%Z) as [y' s3'].
    unfold simr in Y. cbn [fst snd] in Y. destruct y as [y|ex|], y' as [y'|ex'|]; try destruct Y; try exact I.
    + subst y'. destruct y as [[hs e3] cl]. split; [cbn; auto|]. apply sim_set_eoc. assumption.
    + subst. split; [reflexivity|assumption].
Qed.
Lemma warc_parse_sim k st st' o line : sim k st st' ->
  simr k (parsed_sim k) (warc_parse st o (Some line)) (warc_parse st' (add_off o k) (Some line)).
Proof.
  intro H. unfold warc_parse. apply warc_parse_fuel_sim; [exact H|apply rest_len|].
  replace (rest st) with (rest st') by apply H. apply rest_len.
Qed.

(** *** the ARC parser *)
Lemma arc_blank_sim k : forall f1 f2 st st' line,
  sim k st st' -> m st line <= f1 -> m st line <= f2 ->
  simr k eq (arc_blank_loop f1 st line) (arc_blank_loop f2 st' line) /\ exists x, fst (arc_blank_loop f1 st line) = Ret x.
Proof.
  induction f1 as [|f1 IH]; intros f2 st st' line H H1 H2; [pose proof (m_pos st line); lia|].
  destruct f2 as [|f2]; [pose proof (m_pos st line); lia|]. cbn [arc_blank_loop].
  destruct (rstrip line) eqn:Er; [|split; [split; [reflexivity|exact H]|eexists; reflexivity]].
  destruct line as [|c line]; [split; [split; [reflexivity|exact H]|eexists; reflexivity]|]. set (l := c :: line : bytes) in *.
  pose proof (readline_sim k st st' None H) as [E1 S]. pose proof (m_next st l ltac:(discriminate)) as N.
  destruct (stream_readline st None) as [a s1]. destruct (stream_readline st' None) as [a' s1']. cbn [fst snd] in *. subst a'.
  apply IH; [exact S| |]; lia.
Qed.
Definition simp {A} (k : nat) (R : A -> A -> Prop) (x y : outcome A * arcstate * stream) : Prop :=
  match fst (fst x), fst (fst y) with
  | Ret a, Ret b => R a b /\ snd (fst y) = snd (fst x) /\ sim k (snd x) (snd y)
  | Raise e, Raise e' => e = e' /\ snd (fst y) = snd (fst x) /\ sim k (snd x) (snd y)
  | Diverge, Diverge => True
  | _, _ => False
  end.
Lemma header_list_ends names line : arc_header_list names line <> Diverge.
Proof.
  unfold arc_header_list. destruct names as [|n ns].
  - repeat (match goal with |- context [if ?b then _ else _] => destruct b end; cbn [bind]); discriminate.
  - repeat (match goal with |- context [if ?b then _ else _] => destruct b end; cbn [bind]); discriminate.
Qed.
Lemma arc_parse_fuel_sim k f1 f2 a st st' o line :
  sim k st st' -> length (rest st) + 2 <= f1 -> length (rest st) + 2 <= f2 ->
  simp k (parsed_sim k) (arc_parse_fuel f1 a st o (Some line)) (arc_parse_fuel f2 a st' (add_off o k) (Some line)) /\
  fst (fst (arc_parse_fuel f1 a st o (Some line))) <> Diverge.
Proof.
  intros H H1 H2. unfold arc_parse_fuel.
  assert (Hm : m st line <= length (rest st) + 2) by (unfold m; destruct line; lia).
  destruct (arc_blank_sim k f1 f2 st st' line H ltac:(lia) ltac:(lia)) as [X [x Y]].
  destruct (arc_blank_loop f1 st line) as [o1 s1]. destruct (arc_blank_loop f2 st' line) as [o1' s1']. cbn [fst] in Y. subst o1.
  unfold simr in X. cbn [fst snd] in X. destruct o1' as [x'| |]; try contradiction. destruct X as [<- S].
  destruct x as [l|]; [|split; [split; [cbn; auto|split; [reflexivity|exact S]]|discriminate]].
  destruct (startswith FILEDESC l).
  - pose proof (readline_sim k s1 s1' None S) as [E1 S1].
    destruct (stream_readline s1 None) as [v s2]. destruct (stream_readline s1' None) as [v' s2']. cbn [fst snd] in *. subst v'.
    pose proof (readline_sim k s2 s2' None S1) as [E2 S2].
    destruct (stream_readline s2 None) as [n s3]. destruct (stream_readline s2' None) as [n' s3']. cbn [fst snd] in *. subst n'.
    destruct (split_ws (strip v)) as [|v0 vs]; [split; [split; [reflexivity|split; [reflexivity|exact S2]]|discriminate]|].
    pose proof (header_list_ends (a_headers (mkarc v0 (split_ws (strip n)))) l) as He.
    destruct (arc_header_list _ l) as [hs|e|]; [|split; [split; [reflexivity|split; [reflexivity|exact S2]]|discriminate]|contradiction].
    destruct (arc_content_headers hs None []) as [[cl|] errs]; [|split; [split; [reflexivity|split; [reflexivity|exact S2]]|discriminate]].
    split; [split; [cbn; auto|split; [reflexivity|apply sim_set_eoc, S2]]|discriminate].
  - destruct (a_headers a) as [|h hs0] eqn:Ea; [split; [split; [reflexivity|split; [reflexivity|exact S]]|discriminate]|].
    pose proof (header_list_ends (h :: hs0) l) as He.
    destruct (arc_header_list _ l) as [hs|e|]; [|split; [split; [reflexivity|split; [reflexivity|exact S]]|discriminate]|contradiction].
    destruct (arc_content_headers hs None []) as [cl errs].
    split; [split; [cbn; auto|split; [reflexivity|apply sim_set_eoc, S]]|discriminate].
Qed.
Lemma sim_fuel k st st' : sim k st st' -> length (rest st) + 2 <= file_fuel (s_fh st').
Proof. intro H. replace (rest st) with (rest st') by apply H. apply rest_len. Qed.
Lemma arc_parse_sim k a st st' o line : sim k st st' ->
  simp k (parsed_sim k) (arc_parse a st o (Some line)) (arc_parse a st' (add_off o k) (Some line)) /\
  fst (fst (arc_parse a st o (Some line))) <> Diverge.
Proof. intro H. unfold arc_parse. apply arc_parse_fuel_sim; [exact H|apply rest_len|apply (sim_fuel k), H]. Qed.

(** *** the mixed parser *)
Lemma mixed_loop_sim k : forall f1 f2 a st st' o line,
  sim k st st' -> m st line <= f1 -> m st line <= f2 ->
  simp k (parsed_sim k) (mixed_loop f1 a st o line) (mixed_loop f2 a st' (add_off o k) line).
Proof.
  induction f1 as [|f1 IH]; intros f2 a st st' o line H H1 H2; [pose proof (m_pos st line); lia|].
  destruct f2 as [|f2]; [pose proof (m_pos st line); lia|]. cbn [mixed_loop].
  destruct line as [|c line]; [split; [cbn; auto|split; [reflexivity|exact H]]|]. set (l := c :: line : bytes) in *.
  destruct (startswith WARC_PREFIX l).
  - pose proof (warc_parse_sim k st st' o l H) as X. destruct (warc_parse st o (Some l)) as [x s1]. destruct (warc_parse st' (add_off o k) (Some l)) as [x' s1'].
    unfold simr in X. unfold simp. cbn [fst snd] in *. destruct x, x'; try absurd_hyp; try exact I; destruct X as [X1 X2]; split; auto.
  - destruct (negb (in_list l _)).
    + apply arc_parse_sim, H.
    + pose proof (readline_sim k st st' None H) as [E1 S]. pose proof (m_next st l ltac:(discriminate)) as N.
      destruct (stream_readline st None) as [b s1]. destruct (stream_readline st' None) as [b' s1']. cbn [fst snd] in *. subst b'.
      apply IH; [exact S| |]; lia.
Qed.
Lemma run_parser_sim k st st' o line : sim k st st' ->
  simr k (parsed_sim k) (run_parser st o line) (run_parser st' (add_off o k) line).
Proof.
  intro H. unfold run_parser. replace (s_parser st') with (s_parser st) by (symmetry; apply H). destruct (s_parser st) as [|a|a].
  - apply warc_parse_sim, H.
  - destruct (arc_parse_sim k a st st' o line H) as [X _]. destruct (arc_parse a st o (Some line)) as [[x b] s1]. destruct (arc_parse a st' (add_off o k) (Some line)) as [[x' b'] s1'].
    unfold simp in X. unfold simr. cbn [fst snd] in *. destruct x, x'; try absurd_hyp; try exact I; destruct X as (X1 & -> & X2); split; auto; apply sim_set_parser, X2.
  - unfold mixed_parse. assert (X : simp k (parsed_sim k) (mixed_loop (file_fuel (s_fh st)) a st o line) (mixed_loop (file_fuel (s_fh st')) a st' (add_off o k) line)).
    { apply mixed_loop_sim; [exact H|apply m_fuel|]. rewrite <- (m_sim k st st' line H). apply m_fuel. }
    destruct (mixed_loop (file_fuel (s_fh st)) a st o line) as [[x b] s1]. destruct (mixed_loop (file_fuel (s_fh st')) a st' (add_off o k) line) as [[x' b'] s1'].
    unfold simp in X. unfold simr. cbn [fst snd] in *. destruct x, x'; try absurd_hyp; try exact I; destruct X as (X1 & -> & X2); split; auto; apply sim_set_parser, X2.
Qed.

(** *** skipping *)
Lemma skip_loop_sim k : forall f1 f2 st st', sim k st st' -> length (rest st) + 2 <= f1 -> length (rest st) + 2 <= f2 ->
  simr k eq (skip_loop f1 st) (skip_loop f2 st') /\ fst (skip_loop f1 st) <> Diverge.
Proof.
  induction f1 as [|f1 IH]; intros f2 st st' H H1 H2; [lia|]. destruct f2 as [|f2]; [lia|]. cbn [skip_loop].
  replace (s_eoc st') with (s_eoc st) by (symmetry; apply H). destruct (s_eoc st) as [e|] eqn:Ee; [|split; [split; [reflexivity|exact H]|discriminate]].
  destruct (0 <? e)%Z eqn:E0; [|split; [split; [reflexivity|exact H]|discriminate]].
  set (n := Z.min CHUNK_SIZE e). assert (Hn : (0 < n)%Z) by (unfold n, CHUNK_SIZE; lia).
  unfold raw_read, f_read. assert (En : (n <? 0)%Z = false) by lia. rewrite En.
  change (f_rest (s_fh st')) with (rest st'). change (f_rest (s_fh st)) with (rest st). replace (rest st') with (rest st) by (symmetry; apply H).
  set (d := firstn (Z.to_nat n) (rest st)).
  assert (S : sim k (count_down (adv st (length d)) (length d)) (count_down (adv st' (length d)) (length d))) by (apply sim_count, sim_adv, H).
  change (set_fh st (f_advance (s_fh st) (length d))) with (adv st (length d)). change (set_fh st' (f_advance (s_fh st') (length d))) with (adv st' (length d)).
  destruct (Z.of_nat (length d) <? n)%Z eqn:Ed; [split; [split; [reflexivity|exact S]|discriminate]|].
  assert (length (rest (count_down (adv st (length d)) (length d))) < length (rest st)).
  { change (rest (count_down ?a ?b)) with (rest a). rewrite rest_adv, skipn_length. assert (length d <= length (rest st)) by (unfold d; rewrite firstn_length; lia). lia. }
  apply IH; [exact S| |]; lia.
Qed.
Lemma skip_to_eoc_sim k st st' : sim k st st' -> simr k eq (skip_to_eoc st) (skip_to_eoc st') /\ fst (skip_to_eoc st) <> Diverge.
Proof. intro H. apply skip_loop_sim; [exact H|apply rest_len|apply (sim_fuel k), H]. Qed.

(** *** one record *)
Definition item_shift (k : nat) (it : item) : item := match it with (o, r, e) => (add_off o k, r, e) end.
Lemma read_record_sim k st st' b : sim k st st' ->
  simr k (fun x y => y = item_shift k x) (read_record st b) (read_record st' b).
Proof.
  intro H. unfold read_record.
  set (sk := match s_eoc st with Some _ => skip_to_eoc st | None => (Ret tt, st) end).
  set (sk' := match s_eoc st' with Some _ => skip_to_eoc st' | None => (Ret tt, st') end).
  assert (X : simr k eq sk sk').
  { unfold sk, sk'. replace (s_eoc st') with (s_eoc st) by (symmetry; apply H). destruct (s_eoc st); [apply skip_to_eoc_sim, H|split; [reflexivity|exact H]]. }
  destruct sk as [x s1]. destruct sk' as [x' s1']. unfold simr in X. cbn [fst snd] in X.
  destruct x as [u|e|], x' as [u'|e'|]; try destruct X; try exact I; [|split; assumption]. clear H0. rename H1 into S.
  pose proof (sim_set_eoc k s1 s1' None S) as S2. set (t := set_eoc s1 None) in *. set (t' := set_eoc s1' None) in *.
  pose proof (skip_blank_eq (s_fh t)) as E. pose proof (skip_blank_eq (s_fh t')) as E'. cbn zeta in E, E'. rewrite E, E'. clear E E'.
  change (f_rest (s_fh t')) with (rest t'). change (f_rest (s_fh t)) with (rest t). replace (rest t') with (rest t) by (symmetry; apply S2).
  set (n := blank_lines _). set (l := first_text _).
  change (set_fh t (f_advance (s_fh t) (n + length l))) with (adv t (n + length l)).
  change (set_fh t' (f_advance (s_fh t') (n + length l))) with (adv t' (n + length l)).
  pose proof (sim_adv k t t' (n + length l) S2) as S3.
  replace (s_kind st') with (s_kind st) by (symmetry; apply H).
  assert (Eo : (match s_kind st with SPlain => if b then Some (f_tell (s_fh t') + n) else None | _ => None end) =
    add_off (match s_kind st with SPlain => if b then Some (f_tell (s_fh t) + n) else None | _ => None end) k).
  { change (f_tell (s_fh t')) with (pos t'). change (f_tell (s_fh t)) with (pos t). replace (pos t') with (pos t + k) by (symmetry; apply S2).
    destruct (s_kind st), b; cbn; try reflexivity. f_equal. lia. }
  rewrite Eo. pose proof (run_parser_sim k (adv t (n + length l)) (adv t' (n + length l)) (match s_kind st with SPlain => if b then Some (f_tell (s_fh t) + n) else None | _ => None end) l S3) as Y.
  destruct (run_parser (adv t (n + length l)) _ l) as [y s4]. destruct (run_parser (adv t' (n + length l)) _ l) as [y' s4'].
  unfold simr in *. cbn [fst snd] in *. destruct y as [[[r e] o]|e|], y' as [[[r' e'] o']|e'|]; try absurd_hyp; try exact I.
  - cbn [parsed_sim] in Y. destruct Y as [(-> & -> & ->) S4]. destruct (s_kind st); cbn [fst snd]; split; auto.
  - exact Y.
Qed.
Lemma run_cop_sim k st st' c : sim k st st' -> simr k eq (run_cop st c) (run_cop st' c).
Proof.
  intro H. destruct c as [n|n]; cbn [run_cop]; [apply stream_read_sim, H|].
  destruct (readline_sim k st st' n H) as [E S]. destruct (stream_readline st n) as [a s1]. destruct (stream_readline st' n) as [a' s1']. cbn [fst snd] in *. subst. split; [reflexivity|exact S].
Qed.
Lemma run_cops_sim k ops : forall st st', sim k st st' -> simr k eq (run_cops st ops) (run_cops st' ops).
Proof.
  induction ops as [|c ops IH]; intros st st' H; cbn [run_cops]; [split; [reflexivity|exact H]|].
  pose proof (run_cop_sim k st st' c H) as X. destruct (run_cop st c) as [x s1]. destruct (run_cop st' c) as [x' s1'].
  unfold simr in X. cbn [fst snd] in X. destruct x as [d|e|], x' as [d'|e'|]; try absurd_hyp; try exact I; [|exact X].
  destruct X as [<- S]. specialize (IH s1 s1' S). destruct (run_cops s1 ops) as [y s2]. destruct (run_cops s1' ops) as [y' s2'].
  unfold simr in *. cbn [fst snd] in *. destruct y, y'; cbn [omap]; try absurd_hyp; try exact I; destruct IH as [-> ?]; split; auto.
Qed.
Definition shown_shift (k : nat) (l : list (item * list bytes)) : list (item * list bytes) := map (fun p => (item_shift k (fst p), snd p)) l.
Lemma session_sim k b uses : forall st st', sim k st st' ->
  simr k (fun x y => y = shown_shift k x) (session b uses st) (session b uses st').
Proof.
  induction uses as [|ops uses IH]; intros st st' H; cbn [session]; [split; [reflexivity|exact H]|].
  pose proof (read_record_sim k st st' b H) as X. destruct (read_record st b) as [x s1]. destruct (read_record st' b) as [x' s1'].
  unfold simr in X. cbn [fst snd] in X. destruct x as [d|e|], x' as [d'|e'|]; try absurd_hyp; try exact I; [|exact X].
  destruct X as [-> S]. pose proof (run_cops_sim k ops s1 s1' S) as Y. destruct (run_cops s1 ops) as [y s2]. destruct (run_cops s1' ops) as [y' s2'].
  unfold simr in Y. cbn [fst snd] in Y. destruct y as [w|e|], y' as [w'|e'|]; try absurd_hyp; try exact I; [|exact Y].
  destruct Y as [<- S2]. specialize (IH s2 s2' S2). destruct (session b uses s2) as [z s3]. destruct (session b uses s2') as [z' s3'].
  unfold simr in *. cbn [fst snd] in *. destruct z, z'; cbn [omap]; try absurd_hyp; try exact I; destruct IH as [-> ?]; split; auto.
Qed.

(** ** Streams only move forward *)
Definition same_class (p q : parser) : Prop :=
  match p, q with PWarc, PWarc => True | PArc _, PArc _ => True | PMixed _, PMixed _ => True | _, _ => False end.
(** the same file, not earlier *)
Definition later (st st' : stream) : Prop :=
  f_data (s_fh st') = f_data (s_fh st) /\ f_strict (s_fh st') = f_strict (s_fh st) /\ s_kind st' = s_kind st /\
  pos st <= pos st' /\ same_class (s_parser st) (s_parser st').
Lemma same_class_refl p : same_class p p. Proof. destruct p; exact I. Qed.
Lemma later_refl st : later st st. Proof. repeat split. lia. apply same_class_refl. Qed.
Lemma later_trans a b c : later a b -> later b c -> later a c.
Proof.
  intros (H1 & H2 & H3 & H4 & H5) (K1 & K2 & K3 & K4 & K5). repeat split; try congruence; [lia|].
  destruct (s_parser a), (s_parser b), (s_parser c); try absurd_hyp; exact I.
Qed.
Lemma later_adv st n : later st (adv st n).
Proof. repeat split; [rewrite pos_adv; lia|apply same_class_refl]. Qed.
Lemma later_eoc st e : later st (set_eoc st e).
Proof. repeat split; [unfold pos; cbn; lia|apply same_class_refl]. Qed.
Lemma later_count st n : later st (count_down st n). Proof. apply later_eoc. Qed.
Lemma later_readline st c : later st (snd (stream_readline st c)).
Proof. rewrite readline_eq. cbn [snd]. eapply later_trans; [apply later_adv|apply later_count]. Qed.
Lemma later_raw st c : later st (snd (raw_read st c)).
Proof.
  destruct c as [n|].
  - unfold raw_read, f_read. destruct (n <? 0)%Z.
    + destruct (_ || _).
      * cbn. eapply later_trans; [apply (later_adv st (length (f_rest (s_fh st))))|apply later_count].
      * destruct st. apply later_refl.
    + cbn [snd]. eapply later_trans; [apply (later_adv st (length (firstn (Z.to_nat n) (f_rest (s_fh st)))))|apply later_count].
  - rewrite raw_read_all_eq. cbn [snd]. eapply later_trans; [apply later_adv|apply later_count].
Qed.
Lemma later_read st c : later st (snd (stream_read st c)). Proof. apply later_raw. Qed.
Lemma later_cop st c : later st (snd (run_cop st c)).
Proof. destruct c as [n|n]; cbn [run_cop]; [apply later_read|]. pose proof (later_readline st n). destruct (stream_readline st n). exact H. Qed.
Lemma later_cops ops : forall st, later st (snd (run_cops st ops)).
Proof.
  induction ops as [|c ops IH]; intro st; [apply later_refl|]. cbn [run_cops]. pose proof (later_cop st c) as H. destruct (run_cop st c) as [[d|e|] s1]; cbn [snd] in *; try exact H.
  specialize (IH s1). destruct (run_cops s1 ops) as [r s2]. cbn [snd] in *. eapply later_trans; eassumption.
Qed.
Lemma later_rest st st' : later st st' -> length (rest st') <= length (rest st).
Proof. intros (H1 & _ & _ & H4 & _). unfold rest, f_rest. rewrite H1, !skipn_length. unfold pos, f_tell in H4. lia. Qed.
Lemma later_rest_eq st st' : later st st' -> exists n, rest st' = skipn n (rest st) /\ pos st' = pos st + n.
Proof.
  intros (H1 & _ & _ & H4 & _). exists (pos st' - pos st). split; [|lia]. unfold rest, f_rest. rewrite H1, skipn_skipn'. f_equal. unfold pos, f_tell in *. lia.
Qed.
Lemma later_find f : forall st line o e, later st (snd (find_version f st line o e)).
Proof.
  induction f as [|f IH]; intros st line o e; [apply later_refl|]. cbn [find_version]. destruct line as [|c l]; [apply later_refl|].
  destruct (re_match version_rx (c :: l)); [apply later_refl|].
  assert (Hn : forall e o, later st (snd (let '(line', st2) := stream_readline st None in find_version f st2 line' o e))).
  { intros e' o'. pose proof (later_readline st None) as X. destruct (stream_readline st None) as [a s]. eapply later_trans; [exact X|apply IH]. }
  destruct (re_test nl_rx (c :: l)); [apply Hn|]. destruct (Nat.ltb _ _); [apply later_refl|apply Hn].
Qed.
Lemma later_follow f : forall st line v e, later st (snd (follow_loop f st line v e)).
Proof.
  induction f as [|f IH]; intros st line v e; [apply later_refl|]. cbn [follow_loop]. destruct (re_match value_rx line); [|apply later_refl].
  pose proof (later_readline st None) as X. destruct (stream_readline st None) as [a s]. eapply later_trans; [exact X|apply IH].
Qed.
Lemma later_header f : forall st line hs e cl, later st (snd (header_loop f st line hs e cl)).
Proof.
  induction f as [|f IH]; intros st line hs e cl; [apply later_refl|]. cbn [header_loop]. destruct line as [|c l]; [apply later_refl|].
  destruct (re_test nl_rx (c :: l)); [apply later_refl|]. destruct (re_match header_rx (c :: l)) as [g|]; [|apply IH].
  pose proof (later_readline st None) as X. destruct (stream_readline st None) as [a s]. cbn [snd] in X.
  match goal with |- context [follow_loop f s a ?v ?er] => pose proof (later_follow f s a v er) as Y; destruct (follow_loop f s a v er) as [[[[vs e2] l2]|ex|] s2] end; cbn [snd] in *.
  - destruct (note_header _ _ _ _) as [e3 c3]. eapply later_trans; [exact X|]. eapply later_trans; [exact Y|apply IH].
  - eapply later_trans; eassumption.
  - eapply later_trans; eassumption.
Qed.
Lemma later_warc st o line : later st (snd (warc_parse st o (Some line))).
Proof.
  unfold warc_parse, warc_parse_fuel. set (f := file_fuel (s_fh st)). pose proof (later_find f st line o []) as X.
  destruct (find_version f st line o []) as [[[p|g o' e]|e|] s1]; cbn [snd] in *; try exact X.
  set (e1 := if bytes_eqb _ _ then _ else _). destruct (in_list _ KNOWN_VERSIONS); [|exact X]. set (e2 := match group g_prefix g with [] => e1 | _ => _ end).
  pose proof (later_readline s1 None) as Y. destruct (stream_readline s1 None) as [a s2]. cbn [snd] in Y.
  pose proof (later_header f s2 a [] e2 0%Z) as Z. destruct (header_loop f s2 a [] e2 0%Z) as [[[[hs e3] cl]|ex|] s3]; cbn [snd] in *;
    (eapply later_trans; [exact X|]); (eapply later_trans; [exact Y|]); try exact Z.
Qed.
Lemma later_arc_blank f : forall st line, later st (snd (arc_blank_loop f st line)).
Proof.
  induction f as [|f IH]; intros st line; [apply later_refl|]. cbn [arc_blank_loop]. destruct (rstrip line); [|apply later_refl]. destruct line; [apply later_refl|].
  pose proof (later_readline st None) as X. destruct (stream_readline st None) as [a s]. eapply later_trans; [exact X|apply IH].
Qed.
Lemma later_arc a st o line : later st (snd (arc_parse a st o (Some line))).
Proof.
  unfold arc_parse, arc_parse_fuel. set (f := file_fuel (s_fh st)). pose proof (later_arc_blank f st line) as X.
  destruct (arc_blank_loop f st line) as [[[l|]|e|] s1]; cbn [snd] in *; try exact X.
  destruct (startswith FILEDESC l).
  - pose proof (later_readline s1 None) as Y. destruct (stream_readline s1 None) as [v s2]. cbn [snd] in Y.
    pose proof (later_readline s2 None) as Z. destruct (stream_readline s2 None) as [n s3]. cbn [snd] in Z.
    assert (W : later st s3) by (eapply later_trans; [exact X|eapply later_trans; eassumption]).
    destruct (split_ws (strip v)); [exact W|]. destruct (arc_header_list _ l) as [hs|e|]; [|exact W|exact W].
    destruct (arc_content_headers hs None []) as [[cl|] e]; [|exact W]. cbn [snd]. eapply later_trans; [exact W|apply later_eoc].
  - destruct (a_headers a); [exact X|]. destruct (arc_header_list _ l) as [hs|e|]; [|exact X|exact X].
    destruct (arc_content_headers hs None []) as [cl e]. cbn [snd]. eapply later_trans; [exact X|apply later_eoc].
Qed.
Lemma later_mixed f : forall a st o line, later st (snd (mixed_loop f a st o line)).
Proof.
  induction f as [|f IH]; intros a st o line; [apply later_refl|]. cbn [mixed_loop]. destruct line as [|c l]; [apply later_refl|].
  destruct (startswith WARC_PREFIX (c :: l)).
  - pose proof (later_warc st o (c :: l)) as X. unfold bytes in *. destruct (warc_parse st o (Some (c :: l))) as [x s1]. exact X.
  - destruct (negb _); [apply later_arc|]. pose proof (later_readline st None) as X. destruct (stream_readline st None) as [b s1]. eapply later_trans; [exact X|apply IH].
Qed.
Lemma later_set_parser st st' p : later st st' -> same_class (s_parser st) p -> later st (set_parser st' p).
Proof. intros (H1 & H2 & H3 & H4 & _) H. repeat split; try assumption. Qed.
Lemma later_run_parser st o line : later st (snd (run_parser st o line)).
Proof.
  unfold run_parser. destruct (s_parser st) as [|a|a] eqn:E.
  - apply later_warc.
  - pose proof (later_arc a st o line) as X. destruct (arc_parse a st o (Some line)) as [[x b] s1]. apply later_set_parser; [exact X|rewrite E; exact I].
  - unfold mixed_parse. pose proof (later_mixed (file_fuel (s_fh st)) a st o line) as X. destruct (mixed_loop _ a st o line) as [[x b] s1].
    apply later_set_parser; [exact X|rewrite E; exact I].
Qed.
Lemma later_skip f : forall st, later st (snd (skip_loop f st)).
Proof.
  induction f as [|f IH]; intro st; [apply later_refl|]. cbn [skip_loop]. destruct (s_eoc st); [|apply later_refl]. destruct (0 <? z)%Z; [|apply later_refl].
  pose proof (later_raw st (Some (Z.min CHUNK_SIZE z))) as X. destruct (raw_read st (Some (Z.min CHUNK_SIZE z))) as [[d|e|] s1]; cbn [snd] in X; try exact X.
  destruct (_ <? _)%Z; [exact X|]. eapply later_trans; [exact X|apply IH].
Qed.
(** an empty line gives no record *)
Lemma run_parser_nil st o : exists a e, fst (run_parser st o []) = Ret (None, a, e).
Proof.
  unfold run_parser. destruct (s_parser st) as [|a|a].
  - exists [], o. reflexivity.
  - exists [], o. reflexivity.
  - exists [], o. reflexivity.
Qed.
Lemma read_record_later st b : later st (snd (read_record st b)) /\
  (forall o r e, fst (read_record st b) = Ret (o, Some r, e) -> length (rest (snd (read_record st b))) < length (rest st)).
Proof.
  unfold read_record. set (sk := match s_eoc st with Some _ => skip_to_eoc st | None => (Ret tt, st) end).
  assert (X : later st (snd sk)) by (unfold sk; destruct (s_eoc st); [apply later_skip|apply later_refl]).
  destruct sk as [[u|e|] s1]; cbn [snd] in X; [|split; [exact X|discriminate] ..].
  set (t := set_eoc s1 None). pose proof (skip_blank_eq (s_fh t)) as E. cbn zeta in E. rewrite E. clear E.
  change (f_rest (s_fh t)) with (rest t). set (ls := lines_of (rest t)). set (n := blank_lines ls). set (l := first_text ls).
  change (set_fh t (f_advance (s_fh t) (n + length l))) with (adv t (n + length l)).
  match goal with |- context [run_parser _ ?o l] => set (off := o) end.
  assert (Xt : later st t) by (eapply later_trans; [exact X|apply later_eoc]).
  assert (Xa : later st (adv t (n + length l))) by (eapply later_trans; [exact Xt|apply later_adv]).
  pose proof (later_run_parser (adv t (n + length l)) off l) as Y.
  assert (P : (exists o r e, fst (run_parser (adv t (n + length l)) off l) = Ret (Some r, e, o)) -> length (rest (adv t (n + length l))) < length (rest st)).
  { intros (o & r & e & H). destruct l as [|c l'] eqn:El.
    - destruct (run_parser_nil (adv t (n + length l)) off) as (a & e' & H'). rewrite El in H'. rewrite H in H'. discriminate.
    - assert (rest t <> []) by (intro Z; unfold l, ls in El; rewrite Z in El; discriminate).
      pose proof (later_rest st t Xt). rewrite rest_adv, skipn_length. destruct (rest t); [contradiction|]. cbn [length] in *. lia. }
  destruct (run_parser (adv t (n + length l)) off l) as [[[[r e] o]|ex|] s4]; cbn [fst snd] in *.
  - assert (Z : later st s4) by (eapply later_trans; eassumption).
    destruct (s_kind st); cbn [fst snd]; (split; [exact Z|]); intros o' r' e' H; try discriminate;
      injection H as; subst; (eapply Nat.le_lt_trans; [apply later_rest, Y|]); apply P; eauto.
  - split; [eapply later_trans; eassumption|discriminate].
  - split; [eapply later_trans; eassumption|discriminate].
Qed.
(** an ARC record is always read or refused *)
Lemma read_record_arc_ends st b a : s_parser st = PArc a -> fst (read_record st b) <> Diverge.
Proof.
  intro Hp. unfold read_record. set (sk := match s_eoc st with Some _ => skip_to_eoc st | None => (Ret tt, st) end).
  assert (Hsim : sim 0 st st) by (repeat split; lia).
  assert (X : fst sk <> Diverge) by (unfold sk; destruct (s_eoc st); [apply (skip_to_eoc_sim 0 st st Hsim)|discriminate]).
  assert (Hq : exists a', s_parser (snd sk) = PArc a').
  { assert (L : later st (snd sk)) by (unfold sk; destruct (s_eoc st); [apply later_skip|apply later_refl]). destruct L as (_ & _ & _ & _ & C). rewrite Hp in C. destruct (s_parser (snd sk)); try absurd_hyp. eauto. }
  destruct sk as [[u|e|] s1]; cbn [fst snd] in *; [|discriminate|contradiction]. destruct Hq as [a' Hq].
  set (t := set_eoc s1 None). pose proof (skip_blank_eq (s_fh t)) as E. cbn zeta in E. rewrite E. clear E.
  set (t2 := set_fh t _). match goal with |- context [run_parser _ ?o ?l] => set (off := o); set (ln := l) end.
  assert (Y : fst (run_parser t2 off ln) <> Diverge).
  { unfold run_parser. assert (s_parser t2 = PArc a') by exact Hq. rewrite H. destruct (arc_parse_sim 0 a' t2 t2 off ln ltac:(repeat split; lia)) as [_ W].
    destruct (arc_parse a' t2 off (Some ln)) as [[x b'] s']. exact W. }
  destruct (run_parser t2 off ln) as [[[[r e] o]|ex|] s4]; cbn [fst] in *; [|discriminate|contradiction]. destruct (s_kind st); discriminate.
Qed.

(** ** Loops *)
Lemma read_loop_ends {S} (body : S -> stream -> item -> outcome bool * S * stream) b :
  (forall s st it, later st (snd (body s st it)) ) ->
  forall fuel limit s st, length (rest st) < fuel -> fst (fst (read_loop fuel limit b body s st)) = Diverge ->
  (exists st', later st st' /\ fst (read_record st' b) = Diverge) \/
  (exists s' st' it, later st st' /\ fst (fst (body s' st' it)) = Diverge).
Proof.
  intro Hb. induction fuel as [|fuel IH]; intros limit s st Hf H; [lia|]. cbn [read_loop] in H.
  assert (Hcase : fst (fst (match read_record st b with
      | (Ret it, st1) =>
          match body s st1 it with
          | (Ret true, s', st2) =>
              match snd (fst it) with
              | Some _ => read_loop fuel (match limit with Some (Datatypes.S n) => Some n | _ => limit end) b body s' st2
              | None => (Ret tt, s', st2)
              end
          | (Ret false, s', st2) => (Ret tt, s', st2)
          | (Raise e, s', st2) => (Raise e, s', st2)
          | (Diverge, s', st2) => (Diverge, s', st2)
          end
      | (Raise e, st1) => (Raise e, s, st1)
      | (Diverge, st1) => (Diverge, s, st1)
      end)) = Diverge) by (destruct limit as [[|n]|]; [discriminate|exact H|exact H]).
  clear H. pose proof (read_record_later st b) as [L P].
  destruct (read_record st b) as [[it|e|] s1] eqn:Er; [|discriminate|left; exists st; split; [apply later_refl|rewrite Er; reflexivity]].
  cbn [fst snd] in *. pose proof (Hb s s1 it) as Lb. destruct (body s s1 it) as [[[[|]|e|] s'] s2] eqn:Eb; cbn [fst snd] in *; try discriminate.
  - destruct it as [[o [r|]] errs]; cbn [fst snd] in Hcase; [|discriminate].
    specialize (P o r errs eq_refl). pose proof (later_rest s1 s2 Lb). specialize (IH _ s' s2 ltac:(lia) Hcase).
    assert (later st s2) by (eapply later_trans; eassumption).
    destruct IH as [(q & Q & D)|(s3 & q & it & Q & D)]; [left; exists q|right; exists s3, q, it]; (split; [eapply later_trans; eassumption|exact D]).
  - right. exists s, s1, it. split; [exact L|]. rewrite Eb. reflexivity.
Qed.
Lemma iter_loop_ends {S} (body : S -> stream -> record -> outcome unit * S * stream) :
  (forall s st r, later st (snd (body s st r)) ) ->
  forall fuel s st, length (rest st) < fuel -> fst (fst (iter_loop fuel body s st)) = Diverge ->
  (exists st', later st st' /\ fst (read_record st' false) = Diverge) \/
  (exists s' st' r, later st st' /\ fst (fst (body s' st' r)) = Diverge).
Proof.
  intro Hb. induction fuel as [|fuel IH]; intros s st Hf H; [lia|]. cbn [iter_loop] in H.
  pose proof (read_record_later st false) as [L P].
  destruct (read_record st false) as [[it|e|] s1] eqn:Er; [|discriminate|left; exists st; split; [apply later_refl|rewrite Er; reflexivity]].
  cbn [fst snd] in *. destruct it as [[o [r|]] errs]; [|destruct errs; discriminate].
  pose proof (Hb s s1 r) as Lb. destruct (body s s1 r) as [[[u|e|] s'] s2] eqn:Eb; cbn [fst snd] in *; try discriminate.
  - specialize (P o r errs eq_refl). pose proof (later_rest s1 s2 Lb). specialize (IH s' s2 ltac:(lia) H).
    assert (later st s2) by (eapply later_trans; eassumption).
    destruct IH as [(q & Q & D)|(s3 & q & it & Q & D)]; [left; exists q|right; exists s3, q, it]; (split; [eapply later_trans; eassumption|exact D]).
  - right. exists s, s1, r. split; [exact L|]. rewrite Eb. reflexivity.
Qed.
