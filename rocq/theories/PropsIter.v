(** C56: iterating over an archive never ends silently on something unreadable. *)
From Verif Require Export PropsParse.
From Coq Require Import String List.
Open Scope list_scope.

(** ** every stream, every loop body *)
(** the states in which the loop asks for the next record *)
Inductive asks {S} (body : S -> stream -> record -> outcome unit * S * stream) : S -> stream -> S -> stream -> Prop :=
| Asks_now : forall s st, asks body s st s st
| Asks_next : forall s st off r errs st1 s2 st2 s' st',
    read_record st false = (Ret (off, Some r, errs), st1) ->
    body s st1 r = (Ret tt, s2, st2) ->
    asks body s2 st2 s' st' -> asks body s st s' st'.

Lemma iter_loop_ends {S} (body : S -> stream -> record -> outcome unit * S * stream) fuel : forall s st s' st',
  iter_loop fuel body s st = (Ret tt, s', st') ->
  exists st0 off, asks body s st s' st0 /\ read_record st0 false = (Ret (off, None, []), st').
Proof.
  induction fuel as [|fuel IH]; intros s st s' st' H; [discriminate|]. cbn [iter_loop] in H.
  destruct (read_record st false) as [[[[off [r|]] errs]|e|] st1] eqn:E; try discriminate.
  - destruct (body s st1 r) as [[[[]|e|] s2] st2] eqn:Eb; try discriminate.
    destruct (IH _ _ _ _ H) as (st0 & off' & Ha & Hr). exists st0, off'. split; [|exact Hr].
    eapply Asks_next; eassumption.
  - destruct errs as [|x errs]; [|discriminate]. injection H as <- <-. exists st, off. split; [constructor|exact E].
Qed.
(** a for loop over the records ends normally only when the reader has just
    reported a clean end: no record and no errors *)
Theorem C56_ends_only_cleanly : forall S (body : S -> stream -> record -> outcome unit * S * stream) s st s' st',
  for_records body s st = (Ret tt, s', st') ->
  exists st0 off, asks body s st s' st0 /\ read_record st0 false = (Ret (off, None, []), st').
Proof. intros S body s st s' st'. apply iter_loop_ends. Qed.

(** ** an intact archive and then something else *)
Lemma first_of_tail st start w sep a x b :
  at_text st start (archive_text ((w, sep) :: a) ++ x) -> s_parser st = PWarc -> s_kind st = SPlain ->
  wrec_ok w -> exists st1,
  read_record st b = (Ret (item_offset SPlain b start, Some (handed w), []), st1) /\
  in_payload st1 (w_body w) (sep ++ archive_text a ++ x) /\
  s_kind st1 = SPlain /\ s_parser st1 = PWarc /\
  pos st1 + List.length (w_body w) = start + List.length (wrec_text w) /\ file_fuel (s_fh st1) = file_fuel (s_fh st).
Proof.
  intros Hat Hp Hk Hw. destruct (at_text_fresh _ _ _ Hat) as (st0 & Heq & He & Hr & Hpos & Hk0 & Hp0 & Hf0).
  destruct (read_wrec st0 b w (sep ++ archive_text a ++ x) He) as [E Hi]; [congruence|rewrite Hk0, Hk; discriminate|exact Hw| |].
  { rewrite Hr, archive_text_cons. rewrite <- !app_assoc. reflexivity. }
  rewrite Heq, E, Hk0, Hk, Hpos. eexists. split; [reflexivity|]. split; [exact Hi|]. split; [cbn; congruence|]. split; [cbn; congruence|].
  split.
  - change (pos (moved st0 ?n ?e)) with (pos (adv st0 n)). rewrite pos_adv, Hpos. unfold wrec_text. rewrite app_length. lia.
  - change (s_fh (moved st0 ?n ?e)) with (s_fh (adv st0 n)). rewrite fuel_adv. exact Hf0.
Qed.

Lemma iter_then {S} (body : S -> stream -> record -> outcome unit * S * stream) step a x : forall fuel s st start,
  iterates body step a -> archive_ok a ->
  at_text st start (archive_text a ++ x) -> s_parser st = PWarc -> s_kind st = SPlain ->
  exists st', iter_loop (List.length a + fuel) body s st = iter_loop fuel body (fold_left step (map fst a) s) st' /\
    at_text st' (start + List.length (archive_text a)) x /\ s_parser st' = PWarc /\ s_kind st' = SPlain /\
    file_fuel (s_fh st') = file_fuel (s_fh st).
Proof.
  induction a as [|[w sep] a IH]; intros fuel s st start Hv Hok Hat Hp Hk.
  - exists st. cbn. rewrite Nat.add_0_r. auto.
  - inversion Hok as [|? ? [Hw Hsep] Hok']; subst. cbn [fst snd] in Hw, Hsep.
    destruct (first_of_tail st start w sep a x false Hat Hp Hk Hw) as (st1 & E & Hi & Hk1 & Hp1 & Hpos1 & Hf1).
    cbn [List.length Nat.add iter_loop map fold_left fst]. rewrite E.
    destruct (Hv s st1 w sep _ (or_introl eq_refl) Hi) as (st2 & E2 & Hu). rewrite E2.
    destruct (used_payload _ _ _ _ Hi Hu) as (l & _ & Hp2 & Hk2 & _ & _ & Hf2).
    destruct (IH fuel (step s w) st2 (start + List.length (wrec_text w) + List.length sep)) as (st' & E' & Hat' & Hp' & Hk' & Hf'); try congruence.
    + intros s0 st0 w0 sep0 aft0 Hin. apply (Hv s0 st0 w0 sep0 aft0). right. exact Hin.
    + exact Hok'.
    + apply (at_text_next st1 (w_body w) st2 sep); try assumption. lia.
    + exists st'. split; [exact E'|]. split; [|split; [exact Hp'|split; [exact Hk'|congruence]]].
      rewrite archive_text_cons, !app_length.
      replace (start + (List.length (wrec_text w) + (List.length sep + List.length (archive_text a))))
          with (start + List.length (wrec_text w) + List.length sep + List.length (archive_text a)) by lia. exact Hat'.
Qed.
Lemma read_then {S} (body : S -> stream -> item -> outcome bool * S * stream) step fin a x : forall fuel s st start,
  visits body step fin a -> archive_ok a ->
  at_text st start (archive_text a ++ x) -> s_parser st = PWarc -> s_kind st = SPlain ->
  exists st' s', read_loop (List.length a + fuel) None true body s st = read_loop fuel None true body s' st' /\
    (forall fin', visit step fin' Some None start a s = fin' s' (Some (start + List.length (archive_text a)))) /\
    at_text st' (start + List.length (archive_text a)) x /\ s_parser st' = PWarc /\ s_kind st' = SPlain /\
    file_fuel (s_fh st') = file_fuel (s_fh st).
Proof.
  induction a as [|[w sep] a IH]; intros fuel s st start Hv Hok Hat Hp Hk.
  - exists st, s. cbn. rewrite !Nat.add_0_r. split; [reflexivity|]. split; [reflexivity|]. auto.
  - inversion Hok as [|? ? [Hw Hsep] Hok']; subst. cbn [fst snd] in Hw, Hsep.
    destruct (first_of_tail st start w sep a x true Hat Hp Hk Hw) as (st1 & E & Hi & Hk1 & Hp1 & Hpos1 & Hf1).
    cbn [List.length Nat.add read_loop visit next_limit]. rewrite E.
    pose proof Hv as [Hstep Hfin].
    destruct (Hstep s st1 w sep _ (item_offset SPlain true start) (or_introl eq_refl) Hi) as (st2 & E2 & Hu). rewrite E2. cbn [fst snd].
    destruct (used_payload _ _ _ _ Hi Hu) as (l & _ & Hp2 & Hk2 & _ & _ & Hf2).
    assert (EQ : start + List.length (archive_text ((w, sep) :: a)) =
       start + List.length (wrec_text w) + List.length sep + List.length (archive_text a)).
    { rewrite archive_text_cons, !app_length. lia. }
    destruct (IH fuel (step s (Some start) w) st2 (start + List.length (wrec_text w) + List.length sep)) as (st' & s' & E' & Hs' & Hat' & Hp' & Hk' & Hf'); try congruence.
    + split; [|exact Hfin]. intros s0 st0 w0 sep0 aft0 off Hin. apply (Hstep s0 st0 w0 sep0 aft0). right. exact Hin.
    + exact Hok'.
    + apply (at_text_next st1 (w_body w) st2 sep); try assumption. lia.
    + exists st', s'. rewrite EQ. split; [exact E'|]. split; [exact Hs'|]. split; [exact Hat'|]. split; [exact Hp'|]. split; [exact Hk'|congruence].
Qed.

Lemma look_rec_iterates a : iterates look_rec (fun acc w => acc ++ [seen_record None w]) a.
Proof.
  intros s st0 w sep after Hin Hi. destruct (look_visits a) as [Hv _].
  destruct (Hv s st0 w sep after None Hin Hi) as (st1 & E & Hu). exists st1. unfold look_rec. rewrite E. split; [reflexivity|exact Hu].
Qed.
Lemma fold_seen l : forall acc, fold_left (fun acc w => acc ++ [seen_record None w]) l acc = acc ++ map (seen_record None) l.
Proof.
  induction l as [|w l IH]; intro acc; cbn [fold_left map]; [rewrite app_nil_r; reflexivity|].
  rewrite IH, <- app_assoc. reflexivity.
Qed.
Lemma split_fuel st a x start : at_text st start (archive_text a ++ x) ->
  exists n, file_fuel (s_fh st) = List.length a + S n.
Proof.
  intro Hat. destruct (at_text_fresh _ _ _ Hat) as (st0 & _ & _ & Hr & _ & _ & _ & Hf0).
  rewrite <- Hf0. pose proof (rest_fuel st0) as H. rewrite Hr, app_length in H. pose proof (archive_text_records a).
  exists (file_fuel (s_fh st0) - List.length a - 1). lia.
Qed.

(** whatever reading the rest of the file on its own raises, iterating over the
    whole file raises, after handing out all the records before it *)
Theorem C56_later_failure_is_raised : forall (a : archive) (tail : bytes) (st : stream) (e : exn),
  archive_ok a -> opened_on (archive_text a ++ tail) st ->
  (forall st1, ready st1 (List.length (archive_text a)) tail -> fst (read_record st1 false) = Raise e) ->
  exists st', for_records look_rec [] st = (Raise e, map (fun p => seen_record None (fst p)) a, st').
Proof.
  intros a tail st e Hok Ho Hr. destruct (opened_at _ _ _ Ho eq_refl) as (Hat & Hp & Hk).
  destruct (split_fuel _ _ _ _ Hat) as [n Hn]. unfold for_records. rewrite Hn.
  destruct (iter_then look_rec _ a tail (S n) [] st 0 (look_rec_iterates a) Hok Hat Hp Hk) as (st' & E & Hat' & Hp' & Hk' & _).
  rewrite E, fold_seen, map_map. cbn [app iter_loop].
  destruct (at_text_fresh _ _ _ Hat') as (st0 & Heq & He & Hr0 & Hpos & Hk0 & Hp0 & _). rewrite Heq.
  specialize (Hr st0). assert (R : ready st0 (List.length (archive_text a)) tail).
  { split; [congruence|]. split; [congruence|]. split; [exact He|]. split; [exact Hpos|exact Hr0]. }
  specialize (Hr R). destruct (read_record st0 false) as [o st1]. cbn in Hr. subst o. eauto.
Qed.

(** ** junk after the last record *)
(** the errors reported for these junk lines *)
Definition junk_report (junk : list bytes) : list perr :=
  if List.length junk <=? 5 then map ErrIgnored junk else map ErrIgnored (firstn 6 junk) ++ [ErrTooMany].

(** how far the reader goes: up to and including the sixth line that is not blank, or to the
    end ([more]: how many further such lines it accepts) *)
Fixpoint read_until (more : nat) (ls : list bytes) : nat :=
  match ls with
  | [] => 0
  | x :: t => List.length x +
      if blank_text x then read_until more t
      else match more with O => 0 | Datatypes.S m => read_until m t end
  end.
Definition junk_read_length (text : bytes) : nat := read_until 5 (lines_of text).

Lemma vfind_junk ls : forall errs, Forall (fun x => version_parts x = None) ls -> List.length errs <= 5 ->
  exists n, vfind ls errs = inl (errs ++ (if List.length errs + List.length (junk_errors ls) <=? 5 then junk_errors ls
                                          else firstn (6 - List.length errs) (junk_errors ls) ++ [ErrTooMany]), n) /\
            n = read_until (5 - List.length errs) ls.
Proof.
  induction ls as [|x t IH]; intros errs H1 H2.
  - exists 0. cbn. rewrite Nat.add_0_r. destruct (Nat.leb_spec (List.length errs) 5); [rewrite app_nil_r; split; reflexivity|lia].
  - inversion H1; subst. cbn [vfind read_until]. change (blank_text x) with (blank_line x). rewrite H3.
    unfold junk_errors in *. cbn [filter]. destruct (blank_line x) eqn:Eb; cbn [negb map List.length].
    + destruct (IH errs H4 H2) as (n & E & Hn). exists (List.length x + n). rewrite E. split; [reflexivity|congruence].
    + rewrite app_length. cbn [List.length]. unfold bad_lines.
      destruct (Nat.ltb_spec 5 (List.length errs + 1)) as [Hlt|Hge].
      * exists (List.length x). assert (List.length errs = 5) by lia.
        destruct (Nat.leb_spec (List.length errs + S (List.length (map ErrIgnored (filter (fun l => negb (blank_line l)) t)))) 5); [lia|].
        replace (6 - List.length errs) with 1 by lia. cbn [firstn]. rewrite <- app_assoc. cbn [app]. split; [reflexivity|]. replace (5 - List.length errs) with 0 by lia. lia.
      * destruct (IH (errs ++ [ErrIgnored x]) H4) as (n & E & Hn); [rewrite app_length; cbn; lia|].
        exists (List.length x + n). rewrite E. split; [|rewrite Hn, app_length; cbn [List.length]; replace (5 - List.length errs) with (S (5 - (List.length errs + 1))) by lia; reflexivity]. do 2 f_equal. rewrite app_length. cbn [List.length].
        replace (List.length errs + 1 + List.length (map ErrIgnored (filter (fun l => negb (blank_line l)) t)))
          with (List.length errs + S (List.length (map ErrIgnored (filter (fun l => negb (blank_line l)) t)))) by lia.
        rewrite <- app_assoc. cbn [app].
        destruct (Nat.leb_spec (List.length errs + S (List.length (map ErrIgnored (filter (fun l => negb (blank_line l)) t)))) 5); [reflexivity|].
        replace (6 - List.length errs) with (S (6 - (List.length errs + 1))) by lia. reflexivity.
Qed.
Lemma junk_read text st p b : ready st p text -> Forall (fun l => version_line l = false) (lines_of text) ->
  exists st1, read_record st b = (Ret (item_offset SPlain b (p + junk_read_length text), None, junk_report (junk_lines (lines_of text))), st1).
Proof.
  intros (Hk & Hp & He & Hpos & Hr) Hv.
  assert (Hk' : s_kind st <> SGzipFile) by (rewrite Hk; discriminate).
  pose proof (read_record_any st b He Hp Hk') as H. cbn zeta in H. unfold rest in H. rewrite Hr in H.
  pose proof (lines_ok text) as Hok.
  assert (Hnone : Forall (fun x => version_parts x = None) (lines_of text)).
  { clear - Hok Hv. revert Hok Hv. generalize (lines_of text). intros ls Hok Hv.
    induction Hok as [|x t [Hx1 Hx2] Ht IH]; [constructor|]. inversion Hv; subst. constructor; [|auto]. apply version_line_none; auto. }
  destruct (vfind_junk (lines_of text) [] Hnone ltac:(cbn; lia)) as (n & W & Hn). change (n = junk_read_length text) in Hn. subst n. set (n := junk_read_length text) in *.
  unfold wparse in H. rewrite W in H. cbn [app List.length Nat.add Nat.sub] in H.
  exists (adv st n). rewrite H, Hk.
  change (StreamFacts.pos st) with (f_pos (s_fh st)). rewrite Hpos. unfold junk_report, junk_errors.
  rewrite map_length, firstn_map. reflexivity.
Qed.
Lemma junk_report_nil l : junk_report l = [] <-> l = [].
Proof.
  unfold junk_report. split; [|intros ->; reflexivity]. destruct l as [|x l]; [reflexivity|].
  destruct (List.length (x :: l) <=? 5); discriminate.
Qed.

Theorem C56_junk_after_the_records : forall (a : archive) (junk : bytes) (st : stream),
  archive_ok a -> opened_on (archive_text a ++ junk) st ->
  Forall (fun l => version_line l = false) (lines_of junk) ->     (* no record starts in it *)
  junk_lines (lines_of junk) <> [] ->                             (* and it is not blank *)
  (* iterating hands out every record and then raises *)
  (exists st', for_records look_rec [] st = (Raise E_decode, map (fun p => seen_record None (fst p)) a, st')) /\
  (* read_records hands out every record and then the errors *)
  (exists st',
     for_read_records None true look [] st =
       (Ret tt, firstn (List.length a) (seen_archive Some 0 a) ++
                [SeenEnd (Some (List.length (archive_text a) + junk_read_length junk)) (junk_report (junk_lines (lines_of junk)))], st')).
Proof.
  intros a junk st Hok Ho Hv Hj. destruct (opened_at _ _ _ Ho eq_refl) as (Hat & Hp & Hk).
  destruct (split_fuel _ _ _ _ Hat) as [f Hf].
  assert (Hne : junk_report (junk_lines (lines_of junk)) <> []) by (rewrite junk_report_nil; exact Hj).
  split.
  - unfold for_records. rewrite Hf.
    destruct (iter_then look_rec _ a junk (S f) [] st 0 (look_rec_iterates a) Hok Hat Hp Hk) as (st' & E & Hat' & Hp' & Hk' & _).
    rewrite E, fold_seen, map_map. cbn [app iter_loop].
    destruct (at_text_fresh _ _ _ Hat') as (st0 & Heq & He & Hr0 & Hpos & Hk0 & Hp0 & _). rewrite Heq.
    destruct (junk_read junk st0 (List.length (archive_text a)) false) as (st1 & E1).
    { split; [congruence|]. split; [congruence|]. split; [exact He|]. split; [exact Hpos|exact Hr0]. }
    { exact Hv. }
    rewrite E1. destruct (junk_report _) as [|x l]; [congruence|]. eauto.
  - unfold for_read_records. rewrite Hf.
    destruct (read_then look look_step look_fin a junk (S f) [] st 0 (look_visits a) Hok Hat Hp Hk) as (st' & s' & E & Hs & Hat' & Hp' & Hk' & _).
    rewrite E. cbn [read_loop].
    destruct (at_text_fresh _ _ _ Hat') as (st0 & Heq & He & Hr0 & Hpos & Hk0 & Hp0 & _). rewrite Heq.
    destruct (junk_read junk st0 (List.length (archive_text a)) true) as (st1 & E1).
    { split; [congruence|]. split; [congruence|]. split; [exact He|]. split; [exact Hpos|exact Hr0]. }
    { exact Hv. }
    rewrite E1. cbn [look]. exists st1.
    assert (Es : s' = firstn (List.length a) (seen_archive Some 0 a)).
    { pose proof (Hs (fun s _ => s)) as G. rewrite <- G.
      assert (K : forall a start acc, visit look_step (fun s _ => s) Some None start a acc = acc ++ firstn (List.length a) (seen_archive Some start a)).
      { clear. induction a as [|[w sep] a IH]; intros start acc; [cbn; rewrite app_nil_r; reflexivity|].
        cbn [visit next_limit List.length seen_archive firstn]. rewrite IH. unfold look_step. rewrite <- app_assoc. reflexivity. }
      rewrite K. reflexivity. }
    rewrite Es. reflexivity.
Qed.

(** ** the hypotheses are met by a non-trivial case *)
Definition junk_tail : bytes := B "# the end" ++ [CR; LF] ++ [LF] ++ B "one: more" ++ [LF] ++ B "no newline".
Example C56_case : archive_ok sample_archive_ok /\ Forall (fun l => version_line l = false) (lines_of junk_tail) /\
  junk_report (junk_lines (lines_of junk_tail)) =
    [ErrIgnored (B "# the end" ++ [CR; LF]); ErrIgnored (B "one: more" ++ [LF]); ErrIgnored (B "no newline")].
Proof.
  split; [apply archive_okb_sound; vm_compute; reflexivity|]. split; [|vm_compute; reflexivity].
  assert (E : forallb (fun l => negb (version_line l)) (lines_of junk_tail) = true) by (vm_compute; reflexivity).
  apply Forall_forall. intros l Hl. rewrite forallb_forall in E. specialize (E l Hl). destruct (version_line l); [discriminate|reflexivity].
Qed.
