(** Lemmas for PropsFaults.v: reading a file whose calls may fail agrees with reading the
    file without failures until the first failure. *)
From Verif Require Export Faults Place.
From Coq Require Import String List Lia.
Open Scope list_scope.

Section Agree.
  Context {F : Type}.
  Variable ops : fops F.
  Variable budget : nat.
  (** the faulty file and the file; which exceptions are failures; where the file is when
      a failure was met *)
  Variable R : F -> file -> Prop.
  Variable fault : exn -> Prop.
  Variable lost : file -> Prop.
  Definition ag1 {A} (x : outcome A * F) (y : outcome A * file) : Prop :=
    (fst x = fst y /\ R (snd x) (snd y)) \/ (exists e, fst x = Raise e /\ fault e /\ lost (snd y)).
  Record honest : Prop := mkhonest {
    h_read : forall f f0 n, R f f0 -> ag1 (q_read ops f n) (f_read f0 n);
    h_read_all : forall f f0, R f f0 -> ag1 (q_read_all ops f) (let '(d, f') := f_read_all f0 in (Ret d, f'));
    h_readline : forall f f0, R f f0 -> ag1 (q_readline ops f) (let '(d, f') := f_readline f0 in (Ret d, f'));
    h_readline_lim : forall f f0 n, R f f0 -> ag1 (q_readline_lim ops f n) (let '(d, f') := f_readline_lim f0 n in (Ret d, f'));
    h_tell : forall f f0, R f f0 -> ag1 (q_tell ops f) (Ret (f_tell f0), f0) }.
  Hypothesis Hh : honest.
  Hypothesis Hlost : forall f f', lost f -> f_data f' = f_data f -> f_strict f' = f_strict f -> f_pos f <= f_pos f' -> lost f'.

  Definition Rst (x : fstream F) (y : stream) : Prop :=
    x_kind x = s_kind y /\ x_eoc x = s_eoc y /\ x_parser x = s_parser y /\ R (x_fh x) (s_fh y).
  Definition ag {A} (x : outcome A * fstream F) (y : outcome A * stream) : Prop :=
    (fst x = fst y /\ (fst x <> Diverge -> Rst (snd x) (snd y))) \/ (exists e, fst x = Raise e /\ fault e /\ (fst y <> Diverge -> lost (s_fh (snd y)))).

  Lemma lost_later st st' : lost (s_fh st) -> later st st' -> lost (s_fh st').
  Proof. intros H (H1 & H2 & _ & H4 & _). apply (Hlost _ _ H); assumption. Qed.
  Lemma ag_then' {A C} x y (f : A -> fstream F -> outcome C * fstream F) g :
    ag x y -> (forall a st, fst y = Ret a -> Rst st (snd y) -> ag (f a st) (g a (snd y))) -> (forall a, fst y = Ret a -> later (snd y) (snd (g a (snd y)))) ->
    ag (andthen x f) (andthen y g).
  Proof.
    intros [[E S]|(e & E & Hf & L)] Hk Hl.
    - destruct x as [o s], y as [o0 s0]. cbn [fst snd] in *. subst o0. destruct o as [a|e|]; cbn [andthen].
      + apply Hk; [reflexivity|apply S; discriminate].
      + left. split; [reflexivity|intros _; apply S; discriminate].
      + left. split; [reflexivity|]. intro X. contradiction X. reflexivity.
    - destruct x as [o s]. cbn [fst] in E. subst o. right. exists e. split; [reflexivity|]. split; [exact Hf|].
      destruct y as [[a|e0|] s0]; cbn [andthen fst snd] in *.
      + intros _. eapply lost_later; [apply L; discriminate|apply Hl; reflexivity].
      + intros _. apply L. discriminate.
      + intro X. contradiction X. reflexivity.
  Qed.
  Lemma ag_then {A C} x y (f : A -> fstream F -> outcome C * fstream F) g :
    ag x y -> (forall a st st0, fst y = Ret a -> Rst st st0 -> ag (f a st) (g a st0)) -> (forall a st0, later st0 (snd (g a st0))) ->
    ag (andthen x f) (andthen y g).
  Proof. intros H Hk Hl. apply ag_then'; [exact H| |]; intros; [apply Hk; assumption|apply Hl]. Qed.
  Lemma ag_ret {A} (a : A) st st0 : Rst st st0 -> ag (Ret a, st) (Ret a, st0).
  Proof. intro H. left. split; [reflexivity|intros _; exact H]. Qed.
  Lemma ag_raise {A} e st st0 : Rst st st0 -> @ag A (Raise e, st) (Raise e, st0).
  Proof. intro H. left. split; [reflexivity|intros _; exact H]. Qed.
  Lemma Rst_eoc x y e : Rst x y -> Rst (x_set_eoc x e) (set_eoc y e).
  Proof. intros (H1 & H2 & H3 & H4). repeat split; assumption. Qed.
  Lemma Rst_parser x y p : Rst x y -> Rst (x_set_parser x p) (set_parser y p).
  Proof. intros (H1 & H2 & H3 & H4). repeat split; assumption. Qed.
  Lemma ag_on {A} (call : F -> outcome A * F) (call0 : file -> outcome A * file) x y :
    Rst x y -> ag1 (call (x_fh x)) (call0 (s_fh y)) -> ag (x_on call x) (let '(o, f') := call0 (s_fh y) in (o, set_fh y f')).
  Proof.
    intros (H1 & H2 & H3 & H4) H. unfold x_on. destruct (call (x_fh x)) as [o f]. destruct (call0 (s_fh y)) as [o0 f0].
    destruct H as [[E S]|(e & E & Hf & L)]; cbn [fst snd] in *.
    - left. split; [exact E|]. intros _. repeat split; assumption.
    - right. exists e. split; [exact E|]. split; [exact Hf|intros _; exact L].
  Qed.
  Lemma ag_counted x y : ag x y ->
    ag (x_counted x) (match y with (Ret d, st) => (Ret d, count_down st (List.length d)) | z => z end).
  Proof.
    intro H. unfold x_counted.
    replace (match y with (Ret d, st) => (Ret d, count_down st (List.length d)) | z => z end)
      with (andthen y (fun d st => (Ret d, count_down st (List.length d)))) by (destruct y as [[d|e|] s]; reflexivity).
    apply ag_then; [exact H| |intros; apply later_count].
    intros d st st0 _ S. apply ag_ret. unfold count_down. replace (x_eoc st) with (s_eoc st0) by (symmetry; apply S). apply Rst_eoc, S.
  Qed.
  Lemma ag_raw x y c : Rst x y -> ag (x_raw_read ops x c) (raw_read y c).
  Proof.
    intro H. unfold x_raw_read, raw_read. destruct c as [n|].
    - pose proof (ag_on (fun f => q_read ops f n) (fun f => f_read f n) x y H (h_read Hh _ _ n (proj2 (proj2 (proj2 H))))) as X. cbn beta in X.
      apply ag_counted in X. destruct (f_read (s_fh y) n) as [[d|e|] f']; exact X.
    - pose proof (ag_on (q_read_all ops) (fun f => let '(d, f') := f_read_all f in (Ret d, f')) x y H (h_read_all Hh _ _ (proj2 (proj2 (proj2 H))))) as X. cbn beta in X.
      apply ag_counted in X. destruct (f_read_all (s_fh y)) as [d f']. exact X.
  Qed.
  Lemma bounded_eq x y c : Rst x y -> x_bounded x c = bounded y c.
  Proof. intro H. unfold x_bounded, bounded. replace (x_eoc x) with (s_eoc y) by (symmetry; apply H). reflexivity. Qed.
  Lemma ag_read x y c : Rst x y -> ag (x_read ops x c) (stream_read y c).
  Proof. intro H. unfold x_read, stream_read. rewrite (bounded_eq x y c H). apply ag_raw, H. Qed.
  Definition readline0 (y : stream) (c : option Z) : outcome bytes * stream := let '(l, st') := stream_readline y c in (Ret l, st').
  Lemma ag_readline x y c : Rst x y -> ag (x_readline ops x c) (readline0 y c).
  Proof.
    intro H. unfold x_readline, readline0, stream_readline. rewrite (bounded_eq x y c H). destruct (bounded y c) as [n|].
    - pose proof (ag_on (fun f => q_readline_lim ops f n) (fun f => let '(d, f') := f_readline_lim f n in (Ret d, f')) x y H (h_readline_lim Hh _ _ n (proj2 (proj2 (proj2 H))))) as X. cbn beta in X.
      apply ag_counted in X. destruct (f_readline_lim (s_fh y) n) as [d f']. exact X.
    - pose proof (ag_on (q_readline ops) (fun f => let '(d, f') := f_readline f in (Ret d, f')) x y H (h_readline Hh _ _ (proj2 (proj2 (proj2 H))))) as X. cbn beta in X.
      apply ag_counted in X. destruct (f_readline (s_fh y)) as [d f']. exact X.
  Qed.
  Lemma later_readline0 y c : later y (snd (readline0 y c)).
  Proof. unfold readline0. pose proof (later_readline y c) as H. destruct (stream_readline y c). exact H. Qed.

  Lemma ag_skip : forall f x y, Rst x y -> ag (x_skip_loop ops f x) (skip_loop f y).
  Proof.
    induction f as [|f IH]; intros x y H; [left; split; [reflexivity|intros _; exact H]|]. cbn [x_skip_loop skip_loop].
    replace (x_eoc x) with (s_eoc y) by (symmetry; apply H). destruct (s_eoc y) as [e|]; [|apply ag_raise, H].
    destruct (Z.ltb 0 e); [|apply ag_ret, H]. cbn zeta. set (n := Z.min CHUNK_SIZE e).
    pose proof (ag_then _ _ (fun buf st' => if Z.ltb (Z.of_nat (List.length buf)) n then (Raise E_short, st') else x_skip_loop ops f st')
       (fun buf st' => if Z.ltb (Z.of_nat (List.length buf)) n then (Raise E_short, st') else skip_loop f st') (ag_raw x y (Some n) H)) as X.
    assert (E : forall z : outcome bytes * stream, match z with
       | (Ret buf, st') => if (Z.of_nat (List.length buf) <? n)%Z then (Raise E_short, st') else skip_loop f st'
       | (Raise x0, st') => (Raise x0, st') | (Diverge, st') => (Diverge, st') end =
       andthen z (fun buf st' => if Z.ltb (Z.of_nat (List.length buf)) n then (Raise E_short, st') else skip_loop f st')) by (intros [[d|e0|] s]; reflexivity).
    rewrite E. apply X.
    - intros a st st0 _ S. destruct (_ <? _)%Z; [apply ag_raise, S|apply IH, S].
    - intros a st0. destruct (_ <? _)%Z; [apply later_refl|apply later_skip].
  Qed.

  Definition blank0 (f : nat) (y : stream) : outcome (nat * bytes) * stream := let '(o, f') := blank_loop f (s_fh y) in (o, set_fh y f').
  Lemma set_fh_same y : set_fh y (s_fh y) = y. Proof. destruct y; reflexivity. Qed.
  Definition line0 (y : stream) : outcome bytes * stream := let '(l, f') := f_readline (s_fh y) in (Ret l, set_fh y f').
  Lemma blank0_eq f y : blank0 (S f) y =
    andthen (Ret (f_tell (s_fh y)), y) (fun offset st1 => andthen (line0 st1) (fun line st2 =>
      if re_test crlf_line_rx line then blank0 f st2 else (Ret (offset, line), st2))).
  Proof.
    unfold blank0. cbn [blank_loop andthen]. unfold line0. destruct (f_readline (s_fh y)) as [l f'] eqn:E. cbn [andthen].
    destruct (re_test crlf_line_rx l); [|reflexivity]. cbn [set_fh s_fh]. destruct (blank_loop f f') as [o f'']. reflexivity.
  Qed.
  Lemma later_line0 y : later y (snd (line0 y)).
  Proof. unfold line0, f_readline. cbn [snd]. apply (later_adv y). Qed.
  Lemma later_blank0 f : forall y, later y (snd (blank0 f y)).
  Proof.
    induction f as [|f IH]; intro y; [unfold blank0; cbn; rewrite set_fh_same; apply later_refl|]. rewrite blank0_eq. cbn [andthen].
    pose proof (later_line0 y) as X. destruct (line0 y) as [[l|e|] s]; cbn [andthen snd] in *; try exact X.
    destruct (re_test _ _); [|exact X]. eapply later_trans; [exact X|apply IH].
  Qed.
  Lemma ag_tell x y : Rst x y -> ag (x_on (q_tell ops) x) (Ret (f_tell (s_fh y)), y).
  Proof.
    intro H. pose proof (ag_on (q_tell ops) (fun f => (Ret (f_tell f), f)) x y H (h_tell Hh _ _ (proj2 (proj2 (proj2 H))))) as X.
    cbn beta iota in X. rewrite set_fh_same in X. exact X.
  Qed.
  Lemma ag_line x y : Rst x y -> ag (x_on (q_readline ops) x) (line0 y).
  Proof.
    intro H. pose proof (ag_on (q_readline ops) (fun f => let '(d, f') := f_readline f in (Ret d, f')) x y H (h_readline Hh _ _ (proj2 (proj2 (proj2 H))))) as X.
    cbn beta in X. unfold line0. destruct (f_readline (s_fh y)) as [d f']. exact X.
  Qed.
  Lemma ag_blank : forall f x y, Rst x y -> ag (x_blank_loop ops f x) (blank0 f y).
  Proof.
    induction f as [|f IH]; intros x y H; [left; split; [reflexivity|]; intros _; unfold blank0; cbn; rewrite set_fh_same; exact H|].
    rewrite blank0_eq. cbn [x_blank_loop]. apply ag_then; [apply ag_tell, H| |].
    - intros off st st0 _ S. apply ag_then; [apply ag_line, S| |].
      + intros l st1 st2 _ S2. destruct (re_test _ _); [apply IH, S2|apply ag_ret, S2].
      + intros l st1. destruct (re_test _ _); [apply later_blank0|apply later_refl].
    - intros off st0. pose proof (later_line0 st0) as X. destruct (line0 st0) as [[l|e|] s]; cbn [andthen snd] in *; try exact X.
      destruct (re_test _ _); [eapply later_trans; [exact X|apply later_blank0]|exact X].
  Qed.

  (** *** the WARC parser *)
  Lemma readline_then {C} y c (g : bytes -> stream -> outcome C * stream) :
    (let '(line', st') := stream_readline y c in g line' st') = andthen (readline0 y c) g.
  Proof. unfold readline0. destruct (stream_readline y c). reflexivity. Qed.
  Lemma ag_find : forall f x y line o errs, Rst x y -> ag (x_find_version ops f x line o errs) (find_version f y line o errs).
  Proof.
    induction f as [|f IH]; intros x y line o errs H; [left; split; [reflexivity|intros _; exact H]|]. cbn [x_find_version find_version].
    destruct line as [|c l]; [apply ag_ret, H|]. destruct (re_match version_rx (c :: l)) as [g|]; [apply ag_ret, H|]. cbn zeta.
    assert (N : forall e, ag (andthen (x_readline ops x None) (fun line' st' => x_find_version ops f st' line' (add_off o (List.length (c :: l))) e))
      (let '(line', st') := stream_readline y None in find_version f st' line' (add_off o (List.length (c :: l))) e)).
    { intro e. rewrite (readline_then y None (fun line' st' => find_version f st' line' (add_off o (List.length (c :: l))) e)).
      apply ag_then; [apply ag_readline, H| |].
      - intros a st st0 _ S. apply IH, S.
      - intros a st0. apply later_find. }
    destruct (re_test nl_rx (c :: l)); [apply N|]. destruct (Nat.ltb _ _); [apply ag_ret, H|apply N].
  Qed.
  Lemma ag_follow : forall f x y line vs errs, Rst x y -> ag (x_follow_loop ops f x line vs errs) (follow_loop f y line vs errs).
  Proof.
    induction f as [|f IH]; intros x y line vs errs H; [left; split; [reflexivity|intros _; exact H]|]. cbn [x_follow_loop follow_loop].
    destruct (re_match value_rx line) as [g|]; [|apply ag_ret, H]. cbn zeta.
    match goal with |- ag _ (let '(_, _) := _ in follow_loop f _ _ ?v ?e) => rewrite (readline_then y None (fun line' st' => follow_loop f st' line' v e)) end.
    apply ag_then; [apply ag_readline, H| |].
    - intros a st st0 _ S. apply IH, S.
    - intros a st0. apply later_follow.
  Qed.
  Lemma then_match {A C} (z : outcome A * stream) (g : A -> stream -> outcome C * stream) :
    match z with (Ret a, s) => g a s | (Raise e, s) => (Raise e, s) | (Diverge, s) => (Diverge, s) end = andthen z g.
  Proof. destruct z as [[a|e|] s]; reflexivity. Qed.
  Lemma ag_header : forall f x y line hs errs cl, Rst x y -> ag (x_header_loop ops f x line hs errs cl) (header_loop f y line hs errs cl).
  Proof.
    induction f as [|f IH]; intros x y line hs errs cl H; [left; split; [reflexivity|intros _; exact H]|]. cbn [x_header_loop header_loop].
    destruct line as [|c l]; [apply ag_ret, H|]. destruct (re_test nl_rx (c :: l)); [apply ag_ret, H|].
    destruct (re_match header_rx (c :: l)) as [g|]; [|apply IH, H]. cbn zeta.
    set (e1 := if bytes_eqb (group g_nl g) CRLF then errs else _). set (v1 := strip (group g_value g)). set (nm := strip (group g_name g)).
    set (gg := fun (p : list bytes * list perr * bytes) st2 => let '(values, errors2, line2) := p in
       let '(errors3, clen') := note_header nm (join [32%N] values) errors2 cl in header_loop f st2 line2 (hs ++ [(nm, join [32%N] values)]) errors3 clen').
    assert (Hg : forall p st0, later st0 (snd (gg p st0))).
    { intros [[vs e2] l2] st0. unfold gg. destruct (note_header _ _ _ _) as [e3 c3]. apply later_header. }
    set (rhs := let '(line1, st1) := stream_readline y None in _).
    replace rhs with (andthen (readline0 y None) (fun line1 st1 => andthen (follow_loop f st1 line1 [v1] e1) gg)).
    2:{ unfold rhs. rewrite <- (readline_then y None). destruct (stream_readline y None) as [l1 s1]. destruct (follow_loop f s1 l1 [v1] e1) as [[[[vs e2] l2]|ex|] s2]; reflexivity. }
    apply ag_then; [apply ag_readline, H| |].
    - intros l1 st st0 _ S. apply ag_then; [apply ag_follow, S| |exact Hg].
      intros [[vs e2] l2] st1 st2 _ S2. unfold gg. destruct (note_header _ _ _ _) as [e3 c3]. apply IH, S2.
    - intros l1 st0. pose proof (later_follow f st0 l1 [v1] e1) as X. destruct (follow_loop f st0 l1 [v1] e1) as [[p|ex|] s2]; cbn [andthen snd] in *; try exact X.
      eapply later_trans; [exact X|apply Hg].
  Qed.
  Definition warc_rest (fuel : nat) (fd : found) (st1 : stream) : outcome parsed * stream :=
    match fd with
    | FNone p => (Ret p, st1)
    | FVersion g offset' errors =>
        let errors1 := if bytes_eqb (group g_nl g) CRLF then errors else errors ++ [ErrVersionNl (group g_nl g)] in
        if in_list (group g_number g) KNOWN_VERSIONS then
          let errors2 := match group g_prefix g with
                         | [] => errors1
                         | pfx => errors1 ++ [ErrPrefix pfx]
                         end in
          andthen (readline0 st1 None) (fun line1 st2 =>
          andthen (header_loop fuel st2 line1 [] errors2 0%Z) (fun p st3 =>
            let '(headers, errors3, clen) := p in
            (Ret (Some (mkrec (RWarc (group g_version g)) headers errors3 None CF_stream true), [], offset'),
             set_eoc st3 (Some clen))))
        else (Raise ETypeError, st1)
    end.
  Lemma warc_parse_eq fuel y o line : warc_parse_fuel fuel y o (Some line) = andthen (find_version fuel y line o []) (warc_rest fuel).
  Proof.
    unfold warc_parse_fuel, warc_rest. destruct (find_version fuel y line o []) as [[[p|g o' e]|e|] s1]; cbn [andthen]; try reflexivity.
    destruct (in_list _ _); [|reflexivity]. unfold readline0. cbn zeta. destruct (stream_readline s1 None) as [l s2]. cbn [andthen].
    destruct (header_loop _ _ _ _ _ _) as [[[[hs e3] cl]|ex|] s3]; reflexivity.
  Qed.
  Lemma later_warc_rest fuel fd y : later y (snd (warc_rest fuel fd y)).
  Proof.
    destruct fd as [p|g o e]; cbn [warc_rest]; [apply later_refl|]. cbn zeta. destruct (in_list _ _); [|apply later_refl].
    pose proof (later_readline0 y None) as X. destruct (readline0 y None) as [[l|ex|] s]; cbn [andthen snd] in *; try exact X.
    match goal with |- context [header_loop fuel s l [] ?e 0%Z] => pose proof (later_header fuel s l [] e 0%Z) as Y; destruct (header_loop fuel s l [] e 0%Z) as [[[[hs e3] cl]|ex|] s3] end;
      cbn [andthen snd] in *; (eapply later_trans; [exact X|]); exact Y.
  Qed.
  Lemma ag_warc_rest fuel fd x y : Rst x y ->
    ag (match fd with
      | FNone p => (Ret p, x)
      | FVersion g offset' errors =>
          let errors1 := if bytes_eqb (group g_nl g) CRLF then errors else errors ++ [ErrVersionNl (group g_nl g)] in
          if in_list (group g_number g) KNOWN_VERSIONS then
            let errors2 := match group g_prefix g with
                           | [] => errors1
                           | pfx => errors1 ++ [ErrPrefix pfx]
                           end in
            andthen (x_readline ops x None) (fun line1 st2 =>
            andthen (x_header_loop ops fuel st2 line1 [] errors2 0%Z) (fun p st3 =>
              let '(headers, errors3, clen) := p in
              (Ret (Some (mkrec (RWarc (group g_version g)) headers errors3 None CF_stream true), [], offset'),
               x_set_eoc st3 (Some clen))))
          else (Raise ETypeError, x)
      end) (warc_rest fuel fd y).
  Proof.
    intro H. destruct fd as [p|g o e]; cbn [warc_rest]; [apply ag_ret, H|]. cbn zeta. destruct (in_list _ _); [|apply ag_raise, H].
    apply ag_then; [apply ag_readline, H| |].
    - intros l st st0 _ S. apply ag_then; [apply ag_header, S| |].
      + intros [[hs e3] cl] st1 st2 _ S2. apply ag_ret, Rst_eoc, S2.
      + intros [[hs e3] cl] st2. apply later_eoc.
    - intros l st0. match goal with |- context [header_loop fuel st0 l [] ?e 0%Z] => pose proof (later_header fuel st0 l [] e 0%Z) as Y; destruct (header_loop fuel st0 l [] e 0%Z) as [[[[hs e3] cl]|ex|] s3] end;
      cbn [andthen snd] in *; exact Y.
  Qed.
  Lemma ag_warc_fuel x y o line : Rst x y -> ag (x_warc_parse ops budget x o line) (warc_parse_fuel budget y o (Some line)).
  Proof.
    intro H. rewrite warc_parse_eq. unfold x_warc_parse. apply ag_then; [apply ag_find, H| |].
    - intros fd st st0 _ S. apply ag_warc_rest, S.
    - intros fd st0. apply later_warc_rest.
  Qed.

  (** enough iterations for the rest of the file *)
  Definition fits (y : stream) : Prop := List.length (rest y) + 2 <= budget.
  Lemma fits_later y y' : later y y' -> fits y -> fits y'.
  Proof. intros H Hf. unfold fits in *. pose proof (later_rest y y' H). lia. Qed.
  Lemma sim_refl y : sim 0 y y. Proof. repeat split; lia. Qed.
  Lemma sim_eq y y' : sim 0 y y' -> f_data (s_fh y') = f_data (s_fh y) -> y' = y.
  Proof.
    intros (H1 & H2 & H3 & H4 & _ & H6) H. unfold pos, f_tell in H6. destruct y as [k [d p b] e q], y' as [k' [d' p' b'] e' q']. cbn in *. rewrite Nat.add_0_r in H6. congruence.
  Qed.
  Lemma add_off_0 o : add_off o 0 = o. Proof. destruct o; cbn; [f_equal; lia|reflexivity]. Qed.
  Lemma parsed_sim_0 p q : parsed_sim 0 p q -> q = p.
  Proof. destruct p as [[a b] c], q as [[a' b'] c']. cbn. intros (-> & -> & ->). rewrite add_off_0. reflexivity. Qed.
  (** the same results with another number of iterations *)
  Definition alike {A} (x y : outcome A * stream) : Prop := fst x = fst y /\ (fst x <> Diverge -> snd x = snd y).
  Lemma simr_alike (y0 : stream) (x y : outcome parsed * stream) : simr 0 (parsed_sim 0) x y -> later y0 (snd x) -> later y0 (snd y) -> alike x y.
  Proof.
    intros H L1 L2. unfold simr in H. destruct x as [[a|e|] s], y as [[a'|e'|] s']; cbn [fst snd] in *; try contradiction.
    - destruct H as [P S]. apply parsed_sim_0 in P. subst. split; [reflexivity|]. intros _. symmetry. apply sim_eq; [exact S|]. destruct L1 as [E1 _], L2 as [E2 _]. cbn [snd]. congruence.
    - destruct H as [-> S]. split; [reflexivity|]. intros _. symmetry. apply sim_eq; [exact S|]. destruct L1 as [E1 _], L2 as [E2 _]. cbn [snd]. congruence.
    - split; [reflexivity|]. intro C. contradiction C. reflexivity.
  Qed.
  Lemma ag_alike {A} (x : outcome A * fstream F) y z : ag x y -> alike y z -> ag x z.
  Proof.
    intros [[E S]|(e & E & Hf & L)] [E2 S2].
    - left. split; [congruence|]. intro H. specialize (S H). rewrite S2 in S; [exact S|]. rewrite <- E. exact H.
    - right. exists e. split; [exact E|]. split; [exact Hf|]. intro H. rewrite <- E2 in H. rewrite <- (S2 H). apply L, H.
  Qed.
  Lemma later_warc_fuel f y o line : later y (snd (warc_parse_fuel f y o (Some line))).
  Proof.
    rewrite warc_parse_eq. pose proof (later_find f y line o []) as X. destruct (find_version f y line o []) as [[fd|e|] s1]; cbn [andthen snd] in *; try exact X.
    eapply later_trans; [exact X|apply later_warc_rest].
  Qed.
  Lemma warc_alike y o line : fits y -> alike (warc_parse_fuel budget y o (Some line)) (warc_parse y o (Some line)).
  Proof.
    intro H. apply (simr_alike y); [|apply later_warc_fuel|apply later_warc].
    pose proof (warc_parse_fuel_sim 0 budget (file_fuel (s_fh y)) y y o line (sim_refl y) H (rest_len y)) as X. rewrite add_off_0 in X. exact X.
  Qed.
  Lemma ag_warc x y o line : Rst x y -> fits y -> ag (x_warc_parse ops budget x o line) (warc_parse y o (Some line)).
  Proof. intros H Hf. eapply ag_alike; [apply ag_warc_fuel, H|apply warc_alike, Hf]. Qed.

  (** *** the ARC parser *)
  Lemma ag_arc_blank : forall f x y line, Rst x y -> ag (x_arc_blank_loop ops f x line) (arc_blank_loop f y line).
  Proof.
    induction f as [|f IH]; intros x y line H; [left; split; [reflexivity|intros _; exact H]|]. cbn [x_arc_blank_loop arc_blank_loop].
    destruct (rstrip line); [|apply ag_ret, H]. destruct line as [|c l]; [apply ag_ret, H|].
    rewrite (readline_then y None (fun line' st' => arc_blank_loop f st' line')). apply ag_then; [apply ag_readline, H| |].
    - intros a st st0 _ S. apply IH, S.
    - intros a st0. apply later_arc_blank.
  Qed.
  (** the parser state put into the stream *)
  Definition stored (put : arcstate -> parser) (z : outcome parsed * arcstate * stream) : outcome parsed * stream :=
    let '(o, a', st') := z in (o, set_parser st' (put a')).
  Definition arc_rest (put : arcstate -> parser) (a : arcstate) (offset : option nat) (l : option bytes) (st1 : stream) : outcome parsed * stream :=
      match l with
      | None => (Ret (None, [], offset), st1)
      | Some line1 =>
        if startswith FILEDESC line1 then
          andthen (readline0 st1 None) (fun version_line st2 =>
          andthen (readline0 st2 None) (fun names_line st3 =>
            let raw_headers := [line1; version_line; names_line] in
            let arc_version := strip version_line in
            match split_ws arc_version with
            | [] => (Raise EIndexError, st3)
            | v0 :: _ =>
                let a' := mkarc v0 (split_ws (strip names_line)) in
                let st4 := set_parser st3 (put a') in
                andthen (arc_header_list (a_headers a') line1, st4) (fun hs st5 =>
                  let '(clen, errors) := arc_content_headers hs None [] in
                  match clen with
                  | None => (Raise ETypeError, st5)
                  | Some n =>
                      let n' := (n - Z.of_nat (List.length version_line) - Z.of_nat (List.length names_line))%Z in
                      (Ret (Some (mkrec (RArcHeader arc_version raw_headers) hs errors None CF_stream true), [], offset),
                       set_eoc st5 (Some n'))
                  end)
            end))
        else
          match a_headers a with
          | [] => (Raise E_filedesc, st1)
          | _ =>
              andthen (arc_header_list (a_headers a) line1, st1) (fun hs st2 =>
                let '(clen, errors) := arc_content_headers hs None [] in
                (Ret (Some (mkrec RArc hs errors None CF_stream true), [], offset), set_eoc st2 clen))
          end
      end.
  Lemma set_parser_same y p : s_parser y = p -> set_parser y p = y. Proof. destruct y; cbn; intros ->; reflexivity. Qed.
  Lemma readline0_parser y c : exists l s, readline0 y c = (Ret l, s) /\ s_parser s = s_parser y.
  Proof. unfold readline0. rewrite readline_eq. eexists _, _. split; reflexivity. Qed.
  Lemma blank_parser f : forall y line, s_parser (snd (arc_blank_loop f y line)) = s_parser y.
  Proof.
    induction f as [|f IH]; intros y line; [reflexivity|]. cbn [arc_blank_loop]. destruct (rstrip line); [|reflexivity]. destruct line as [|c l]; [reflexivity|].
    rewrite readline_eq. rewrite IH. reflexivity.
  Qed.
  Lemma arc_parse_eq put f a y o line : s_parser y = put a ->
    stored put (arc_parse_fuel f a y o (Some line)) = andthen (arc_blank_loop f y line) (arc_rest put a o).
  Proof.
    intro Hp. unfold arc_parse_fuel, arc_rest. pose proof (blank_parser f y line) as Q. destruct (arc_blank_loop f y line) as [[[l|]|e|] s1]; cbn [andthen stored snd] in *;
      rewrite Hp in Q; try (rewrite set_parser_same by exact Q; reflexivity).
    destruct (startswith FILEDESC l).
    - destruct (readline0_parser s1 None) as (v & s2 & E2 & P2). rewrite E2. unfold readline0 in E2. destruct (stream_readline s1 None) as [v' s2']. injection E2 as -> ->.
      cbn [andthen]. destruct (readline0_parser s2 None) as (n & s3 & E3 & P3). rewrite E3. unfold readline0 in E3. destruct (stream_readline s2 None) as [n' s3']. injection E3 as -> ->.
      cbn [andthen]. cbn zeta. destruct (split_ws (strip v)) as [|v0 vs]; [cbn [stored]; rewrite set_parser_same by congruence; reflexivity|].
      cbn [a_headers]. destruct (arc_header_list _ l) as [hs|e|]; cbn [andthen stored]; try reflexivity.
      destruct (arc_content_headers hs None []) as [[n0|] e]; reflexivity.
    - destruct (a_headers a) as [|h0 hs0] eqn:Ea; [cbn [stored]; rewrite set_parser_same by exact Q; reflexivity|].
      destruct (arc_header_list (h0 :: hs0) l) as [hs|e|]; cbn [andthen stored]; try (rewrite set_parser_same by exact Q; reflexivity).
      destruct (arc_content_headers hs None []) as [cl e]. cbn [stored]. unfold set_parser, set_eoc. cbn. rewrite <- Q. destruct s1; reflexivity.
  Qed.
  Lemma later_arc_rest put a o l y : same_class (s_parser y) (put a) -> (forall b, same_class (put a) (put b)) -> later y (snd (arc_rest put a o l y)).
  Proof.
    intros Hc Hp. unfold arc_rest. destruct l as [l|]; [|apply later_refl]. destruct (startswith FILEDESC l).
    - destruct (readline0_parser y None) as (v & s2 & E2 & P2). pose proof (later_readline0 y None) as L2. rewrite E2 in *. cbn [andthen snd] in *.
      destruct (readline0_parser s2 None) as (n & s3 & E3 & P3). pose proof (later_readline0 s2 None) as L3. rewrite E3 in *. cbn [andthen snd] in *. cbn zeta.
      assert (L : later y s3) by (eapply later_trans; eassumption).
      destruct (split_ws (strip v)) as [|v0 vs]; [exact L|]. cbn [a_headers].
      assert (L4 : later y (set_parser s3 (put (mkarc v0 (split_ws (strip n)))))).
      { apply later_set_parser; [exact L|]. specialize (Hp (mkarc v0 (split_ws (strip n)))). destruct (s_parser y), (put a), (put _); try contradiction; exact I. }
      destruct (arc_header_list _ l) as [hs|e|]; cbn [andthen snd]; try exact L4. destruct (arc_content_headers hs None []) as [[n0|] e]; exact L4.
    - destruct (a_headers a) as [|h0 hs0]; [apply later_refl|]. destruct (arc_header_list (h0 :: hs0) l) as [hs|e|]; cbn [andthen snd]; try apply later_refl.
      destruct (arc_content_headers hs None []) as [cl e]. apply later_eoc.
  Qed.

  Lemma later_arc_fuel put f a y o line : s_parser y = put a -> (forall b, same_class (put a) (put b)) ->
    later y (snd (stored put (arc_parse_fuel f a y o (Some line)))).
  Proof.
    intros Hp Hc. rewrite (arc_parse_eq put f a y o line Hp). pose proof (later_arc_blank f y line) as X. pose proof (blank_parser f y line) as Q.
    destruct (arc_blank_loop f y line) as [[l|e|] s1]; cbn [andthen snd] in *; try exact X.
    eapply later_trans; [exact X|apply later_arc_rest; [rewrite Q, Hp; apply Hc|exact Hc]].
  Qed.
  Lemma simp_alike put (y0 : stream) x y : simp 0 (parsed_sim 0) x y -> later y0 (snd (stored put x)) -> later y0 (snd (stored put y)) ->
    alike (stored put x) (stored put y).
  Proof.
    intros H L1 L2. apply (simr_alike y0); [|exact L1|exact L2]. unfold simp in H. destruct x as [[ox ax] sx], y as [[oy ay] sy]. cbn [fst snd stored] in *. unfold simr. cbn [fst snd].
    destruct ox, oy; try contradiction; try exact I; destruct H as (H1 & -> & H3); (split; [exact H1|apply sim_set_parser, H3]).
  Qed.
  Lemma ag_arc_rest put a o l x y : Rst x y -> s_parser y = put a -> (forall b, same_class (put a) (put b)) ->
    ag (match l with
      | None => (Ret (None, [], o), x)
      | Some line1 =>
        if startswith FILEDESC line1 then
          andthen (x_readline ops x None) (fun version_line st2 =>
          andthen (x_readline ops st2 None) (fun names_line st3 =>
            let raw_headers := [line1; version_line; names_line] in
            let arc_version := strip version_line in
            match split_ws arc_version with
            | [] => (Raise EIndexError, st3)
            | v0 :: _ =>
                let a' := mkarc v0 (split_ws (strip names_line)) in
                let st4 := x_set_parser st3 (put a') in
                andthen (x_lift (arc_header_list (a_headers a') line1) st4) (fun hs st5 =>
                  let '(clen, errors) := arc_content_headers hs None [] in
                  match clen with
                  | None => (Raise ETypeError, st5)
                  | Some n =>
                      let n' := (n - Z.of_nat (List.length version_line) - Z.of_nat (List.length names_line))%Z in
                      (Ret (Some (mkrec (RArcHeader arc_version raw_headers) hs errors None CF_stream true), [], o),
                       x_set_eoc st5 (Some n'))
                  end)
            end))
        else
          match a_headers a with
          | [] => (Raise E_filedesc, x)
          | _ =>
              andthen (x_lift (arc_header_list (a_headers a) line1) x) (fun hs st2 =>
                let '(clen, errors) := arc_content_headers hs None [] in
                (Ret (Some (mkrec RArc hs errors None CF_stream true), [], o), x_set_eoc st2 clen))
          end
      end) (arc_rest put a o l y).
  Proof.
    intros H Hp Hc. unfold arc_rest. destruct l as [l|]; [|apply ag_ret, H].
    destruct (startswith FILEDESC l).
    - set (last := fun (v names_line : bytes) (st3 : stream) => match split_ws (strip v) with
            | [] => (Raise EIndexError, st3)
            | v0 :: _ =>
                let a' := mkarc v0 (split_ws (strip names_line)) in
                let st4 := set_parser st3 (put a') in
                andthen (arc_header_list (a_headers a') l, st4) (fun hs st5 =>
                  let '(clen, errors) := arc_content_headers hs None [] in
                  match clen with
                  | None => (Raise ETypeError, st5)
                  | Some n =>
                      let n' := (n - Z.of_nat (List.length v) - Z.of_nat (List.length names_line))%Z in
                      (@Ret parsed (Some (mkrec (RArcHeader (strip v) [l; v; names_line]) hs errors None CF_stream true), [], o),
                       set_eoc st5 (Some n'))
                  end)
            end).
      assert (Hl : forall v n st3, s_parser st3 = put a -> later st3 (snd (last v n st3))).
      { intros v n st3 E. unfold last. cbn zeta. destruct (split_ws (strip v)) as [|v0 vs]; [apply later_refl|]. cbn [a_headers].
        assert (L4 : later st3 (set_parser st3 (put (mkarc v0 (split_ws (strip n)))))) by (apply later_set_parser; [apply later_refl|rewrite E; apply Hc]).
        destruct (arc_header_list _ l) as [hs|e|]; cbn [andthen snd]; try exact L4. destruct (arc_content_headers hs None []) as [[n0|] e]; exact L4. }
      destruct (readline0_parser y None) as (v1 & s1 & E1 & P1). rewrite E1.
      assert (A1 : ag (x_readline ops x None) (Ret v1, s1)) by (rewrite <- E1; apply ag_readline, H).
      destruct (readline0_parser s1 None) as (n1 & s2 & E2 & P2).
      apply ag_then'; [exact A1| |].
      + cbn [fst snd]. intros v st Ev S. injection Ev as <-. rewrite E2.
        assert (A2 : ag (x_readline ops st None) (Ret n1, s2)) by (rewrite <- E2; apply ag_readline, S).
        apply ag_then'; [exact A2| |].
        * cbn [fst snd]. intros n st1 En S3. injection En as <-. cbn zeta. destruct (split_ws (strip v1)) as [|v0 vs]; [apply ag_raise, S3|]. cbn [a_headers].
          apply ag_then; [left; split; [reflexivity|intros _; apply Rst_parser, S3]| |].
          -- intros hs st3 st4 _ S4. destruct (arc_content_headers hs None []) as [[n0|] e]; [apply ag_ret, Rst_eoc, S4|apply ag_raise, S4].
          -- intros hs st4. destruct (arc_content_headers hs None []) as [[n0|] e]; [apply later_eoc|apply later_refl].
        * cbn [fst snd]. intros n _. apply (Hl v1 n s2). congruence.
      + cbn [fst snd]. intros v _. pose proof (later_readline0 s1 None) as L. rewrite E2 in *. cbn [andthen snd] in *. eapply later_trans; [exact L|]. apply (Hl v n1 s2). congruence.
    - destruct (a_headers a) as [|h0 hs0]; [apply ag_raise, H|]. apply ag_then; [left; split; [reflexivity|intros _; exact H]| |].
      + intros hs st st0 _ S. destruct (arc_content_headers hs None []) as [cl e]. apply ag_ret, Rst_eoc, S.
      + intros hs st0. destruct (arc_content_headers hs None []) as [cl e]. apply later_eoc.
  Qed.
  Lemma ag_arc_fuel put x y a o line : Rst x y -> s_parser y = put a -> (forall b, same_class (put a) (put b)) ->
    ag (x_arc_parse ops budget put a x o line) (stored put (arc_parse_fuel budget a y o (Some line))).
  Proof.
    intros H Hp Hc. rewrite (arc_parse_eq put budget a y o line Hp). unfold x_arc_parse.
    pose proof (blank_parser budget y line) as Q. rewrite Hp in Q.
    apply ag_then'; [apply ag_arc_blank, H| |].
    - intros l st _ S. apply ag_arc_rest; assumption.
    - intros l _. apply later_arc_rest; [rewrite Q; apply Hc|exact Hc].
  Qed.
  Lemma ag_arc put x y a o line : Rst x y -> fits y -> s_parser y = put a -> (forall b, same_class (put a) (put b)) ->
    ag (x_arc_parse ops budget put a x o line) (stored put (arc_parse a y o (Some line))).
  Proof.
    intros H Hf Hp Hc. eapply ag_alike; [apply ag_arc_fuel; eassumption|]. unfold arc_parse.
    apply (simp_alike put y); [|apply later_arc_fuel; assumption|apply later_arc_fuel; assumption].
    pose proof (arc_parse_fuel_sim 0 budget (file_fuel (s_fh y)) a y y o line (sim_refl y) Hf (rest_len y)) as [X _]. rewrite add_off_0 in X. exact X.
  Qed.

  (** *** the mixed parser *)
  Lemma find_parser f : forall y line o e, s_parser (snd (find_version f y line o e)) = s_parser y.
  Proof.
    induction f as [|f IH]; intros y line o e; [reflexivity|]. cbn [find_version]. destruct line as [|c l]; [reflexivity|]. destruct (re_match version_rx (c :: l)); [reflexivity|]. cbn zeta.
    rewrite readline_eq. destruct (re_test nl_rx (c :: l)); [rewrite IH; reflexivity|]. destruct (Nat.ltb _ _); [reflexivity|rewrite IH; reflexivity].
  Qed.
  Lemma follow_parser f : forall y line v e, s_parser (snd (follow_loop f y line v e)) = s_parser y.
  Proof.
    induction f as [|f IH]; intros y line v e; [reflexivity|]. cbn [follow_loop]. destruct (re_match value_rx line); [|reflexivity]. rewrite readline_eq. rewrite IH. reflexivity.
  Qed.
  Lemma header_parser f : forall y line hs e cl, s_parser (snd (header_loop f y line hs e cl)) = s_parser y.
  Proof.
    induction f as [|f IH]; intros y line hs e cl; [reflexivity|]. cbn [header_loop]. destruct line as [|c l]; [reflexivity|]. destruct (re_test nl_rx (c :: l)); [reflexivity|].
    destruct (re_match header_rx (c :: l)) as [g|]; [|apply IH]. rewrite readline_eq. cbn zeta.
    match goal with |- context [follow_loop f ?s ?a ?v ?er] => pose proof (follow_parser f s a v er) as Y; destruct (follow_loop f s a v er) as [[[[vs e2] l2]|ex|] s2] end; cbn [snd] in *; try exact Y.
    destruct (note_header _ _ _ _) as [e3 c3]. rewrite IH. exact Y.
  Qed.
  Lemma warc_parser y o line : s_parser (snd (warc_parse y o (Some line))) = s_parser y.
  Proof.
    unfold warc_parse. rewrite warc_parse_eq. pose proof (find_parser (file_fuel (s_fh y)) y line o []) as X.
    destruct (find_version _ y line o []) as [[fd|e|] s1]; cbn [andthen snd] in *; try exact X. destruct fd as [p|g o' e]; cbn [warc_rest]; [exact X|]. cbn zeta. destruct (in_list _ _); [|exact X].
    destruct (readline0_parser s1 None) as (v & s2 & E2 & P2). rewrite E2. cbn [andthen].
    match goal with |- context [header_loop ?f ?s ?l [] ?e 0%Z] => pose proof (header_parser f s l [] e 0%Z) as Y; destruct (header_loop f s l [] e 0%Z) as [[[[hs e3] cl]|ex|] s3] end; cbn [andthen snd set_eoc s_parser] in *; congruence.
  Qed.
  Lemma later_stored_mixed f : forall a y o line, s_parser y = PMixed a -> later y (snd (stored PMixed (mixed_loop f a y o line))).
  Proof.
    intros a y o line Hp. pose proof (later_mixed f a y o line) as X. destruct (mixed_loop f a y o line) as [[z b] s]. cbn [stored snd] in *. apply later_set_parser; [exact X|rewrite Hp; exact I].
  Qed.
  Lemma ag_mixed_loop : forall f x y a o line, Rst x y -> fits y -> s_parser y = PMixed a ->
    ag (x_mixed_loop ops budget f a x o line) (stored PMixed (mixed_loop f a y o line)).
  Proof.
    induction f as [|f IH]; intros x y a o line H Hf Hp; cbn [x_mixed_loop mixed_loop].
    - left. cbn [stored]. rewrite (set_parser_same y (PMixed a) Hp). split; [reflexivity|intros _; exact H].
    - destruct line as [|c l]; [cbn [stored]; rewrite (set_parser_same y (PMixed a) Hp); apply ag_ret, H|].
      destruct (startswith WARC_PREFIX (c :: l)).
      + pose proof (ag_warc x y o (c :: l) H Hf) as X. pose proof (warc_parser y o (c :: l)) as Q. unfold bytes in *.
        destruct (warc_parse y o (Some (c :: l))) as [z s]. cbn [stored snd] in *. rewrite set_parser_same by congruence. exact X.
      + destruct (negb _); [apply ag_arc; try assumption; intro b; exact I|].
        destruct (readline0_parser y None) as (v & s2 & E2 & P2).
        replace (stored PMixed (let '(line', st') := stream_readline y None in mixed_loop f a st' o line'))
          with (andthen (readline0 y None) (fun line' st' => stored PMixed (mixed_loop f a st' o line'))) by (unfold readline0; destruct (stream_readline y None); reflexivity).
        pose proof (later_readline0 y None) as L. apply ag_then'; [apply ag_readline, H| |].
        * rewrite E2 in *. cbn [fst snd] in *. intros l' st _ S. apply IH; [exact S|exact (fits_later _ _ L Hf)|congruence].
        * rewrite E2 in *. cbn [fst snd] in *. intros l' _. apply later_stored_mixed. congruence.
  Qed.
  Lemma ag_run_parser x y o line : Rst x y -> fits y -> ag (x_run_parser ops budget x o line) (run_parser y o line).
  Proof.
    intros H Hf. unfold x_run_parser, run_parser. replace (x_parser x) with (s_parser y) by (symmetry; apply H). destruct (s_parser y) as [|a|a] eqn:E.
    - apply ag_warc; assumption.
    - apply (ag_arc PArc); try assumption. intro b; exact I.
    - unfold mixed_parse. eapply ag_alike; [exact (ag_mixed_loop budget x y a o line H Hf E)|].
      apply (simp_alike PMixed y); [|apply later_stored_mixed, E|apply later_stored_mixed, E].
      assert (Hm : forall line, m y line <= List.length (rest y) + 2) by (intro l; unfold m; destruct l; lia).
      pose proof (mixed_loop_sim 0 budget (file_fuel (s_fh y)) a y y o line (sim_refl y)) as X. rewrite add_off_0 in X. apply X.
      + pose proof (Hm line). unfold fits in Hf. lia.
      + pose proof (Hm line). pose proof (rest_len y). lia.
  Qed.

  (** *** one record *)
  Definition skip0 (y : stream) : outcome unit * stream := match s_eoc y with Some _ => skip_to_eoc y | None => (Ret tt, y) end.
  Definition finish (k : skind) (q : parsed) (st : stream) : outcome item * stream :=
    let '(r, errs, offset') := q in
    match k with
    | SPlain => (Ret (offset', r, errs), st)
    | SGzipRecord => (Ret (None, r, errs), st)
    | SGzipFile => (Raise ENameError, st)
    end.
  Definition skipped0 (y : stream) : outcome (nat * bytes) * stream := let '(o, f') := skip_blank (s_fh y) in (o, set_fh y f').
  Lemma read_record_eq y b : read_record y b =
    andthen (skip0 y) (fun _ st1 => andthen (skipped0 (set_eoc st1 None)) (fun p st2 =>
      let '(pos, line) := p in
      let offset := match s_kind y with SPlain => if b then Some pos else None | _ => None end in
      andthen (run_parser st2 offset line) (finish (s_kind y)))).
  Proof.
    unfold read_record, skip0, skipped0. cbn zeta. destruct (match s_eoc y with Some _ => skip_to_eoc y | None => (Ret tt, y) end) as [[u|e|] s1]; cbn [andthen]; try reflexivity.
    destruct (skip_blank (s_fh (set_eoc s1 None))) as [[[p l]|e|] f3]; cbn [andthen]; try reflexivity.
  Qed.
  Lemma skipped0_blank y : fits y -> skipped0 y = blank0 budget y.
  Proof.
    intro H. unfold skipped0, blank0. rewrite skip_blank_eq. rewrite (blank_loop_eq budget (s_fh y)); [reflexivity|]. unfold fits, rest in H. lia.
  Qed.
  Lemma later_skipped0 y : later y (snd (skipped0 y)).
  Proof. unfold skipped0, skip_blank. change (let '(o, f') := blank_loop (file_fuel (s_fh y)) (s_fh y) in (o, set_fh y f')) with (blank0 (file_fuel (s_fh y)) y). apply later_blank0. Qed.
  Lemma simu_alike (y0 : stream) (x y : outcome unit * stream) : simr 0 eq x y -> later y0 (snd x) -> later y0 (snd y) -> alike x y.
  Proof.
    intros H L1 L2. unfold simr in H. destruct x as [[a|e|] s], y as [[a'|e'|] s']; cbn [fst snd] in *; try contradiction.
    - destruct H as [-> S]. split; [reflexivity|]. intros _. symmetry. apply sim_eq; [exact S|]. destruct L1 as [E1 _], L2 as [E2 _]. cbn [snd]. congruence.
    - destruct H as [-> S]. split; [reflexivity|]. intros _. symmetry. apply sim_eq; [exact S|]. destruct L1 as [E1 _], L2 as [E2 _]. cbn [snd]. congruence.
    - split; [reflexivity|]. intro C. contradiction C. reflexivity.
  Qed.
  Lemma later_skip0 y : later y (snd (skip0 y)).
  Proof. unfold skip0. destruct (s_eoc y); [apply later_skip|apply later_refl]. Qed.
  Lemma ag_skip0 x y : Rst x y -> fits y -> ag (match x_eoc x with Some _ => x_skip_loop ops budget x | None => (Ret tt, x) end) (skip0 y).
  Proof.
    intros H Hf. unfold skip0. replace (x_eoc x) with (s_eoc y) by (symmetry; apply H). destruct (s_eoc y); [|apply ag_ret, H].
    eapply ag_alike; [apply ag_skip, H|]. apply (simu_alike y); [|apply later_skip|apply later_skip].
    apply (skip_loop_sim 0 budget (file_fuel (s_fh y)) y y (sim_refl y) Hf (rest_len y)).
  Qed.
  Lemma ag_record x y b : Rst x y -> fits y -> ag (x_read_record ops budget x b) (read_record y b).
  Proof.
    intros H Hf. rewrite read_record_eq. unfold x_read_record. replace (x_kind x) with (s_kind y) by (symmetry; apply H).
    assert (Hl3 : forall o l s, later s (snd (andthen (run_parser s o l) (finish (s_kind y))))).
    { intros o l s. pose proof (later_run_parser s o l) as X. destruct (run_parser s o l) as [[[[r e] o']|e|] s4]; cbn [andthen snd finish] in *; try exact X. destruct (s_kind y); exact X. }
    assert (Hl2 : forall s, later s (snd (andthen (skipped0 (set_eoc s None)) (fun p st2 => let '(pos, line) := p in
       andthen (run_parser st2 (match s_kind y with SPlain => if b then Some pos else None | _ => None end) line) (finish (s_kind y)))))).
    { intro s. pose proof (later_skipped0 (set_eoc s None)) as X. destruct (skipped0 (set_eoc s None)) as [[[p l]|e|] s2]; cbn [andthen snd] in *;
        (eapply later_trans; [apply (later_eoc s None)|]); try exact X. eapply later_trans; [exact X|apply Hl3]. }
    apply ag_then'; [apply ag_skip0; assumption| |].
    - pose proof (fits_later _ _ (later_skip0 y) Hf) as Hf1. set (s0 := snd (skip0 y)) in *. intros u st _ S.
      assert (Hf2 : fits (set_eoc s0 None)) by exact Hf1. rewrite (skipped0_blank _ Hf2).
      pose proof (fits_later _ _ (later_blank0 budget (set_eoc s0 None)) Hf2) as Hf3.
      apply ag_then'; [apply ag_blank, Rst_eoc, S| |].
      + intros [p l] st1 _ S1. apply ag_then; [apply ag_run_parser; assumption| |].
        * intros [[r e] o'] st2 st3 _ S2. unfold finish. destruct (s_kind y); [apply ag_ret, S2|apply ag_ret, S2|apply ag_raise, S2].
        * intros [[r e] o'] st3. unfold finish. destruct (s_kind y); apply later_refl.
      + intros [p l] _. apply Hl3.
    - intros u _. apply Hl2.
  Qed.

  (** *** loops: the callers' states are related by [Rel]; [Ext s s'] when all that happened
      from [s] to [s'] needed the lost part *)
  Section Loops.
    Context {T1 T2 : Type}.
    Variable Rel : T1 -> T2 -> Prop.
    Variable Ext : T2 -> T2 -> Prop.
    Hypothesis Ext_refl : forall s, Ext s s.
    Hypothesis Ext_trans : forall a b c, Ext a b -> Ext b c -> Ext a c.
    Definition agl {A} (x : outcome A * T1 * fstream F) (y : outcome A * T2 * stream) : Prop :=
      (fst (fst x) = fst (fst y) /\ Rel (snd (fst x)) (snd (fst y)) /\ (fst (fst x) <> Diverge -> Rst (snd x) (snd y))) \/
      (exists e s, fst (fst x) = Raise e /\ fault e /\ Rel (snd (fst x)) s /\ Ext s (snd (fst y)) /\ (fst (fst y) <> Diverge -> lost (s_fh (snd y)))).

    Section Read.
      Variable bx : T1 -> fstream F -> item -> outcome bool * T1 * fstream F.
      Variable by_ : T2 -> stream -> item -> outcome bool * T2 * stream.
      Hypothesis Hb : forall s1 s2 x y it, Rel s1 s2 -> Rst x y -> fits y -> agl (bx s1 x it) (by_ s2 y it).
      Hypothesis Hbl : forall s st it, later st (snd (by_ s st it)).
      Hypothesis Hbe : forall s st it, lost (s_fh st) -> Ext s (snd (fst (by_ s st it))).
      Lemma loop_lost off : forall f limit s st, lost (s_fh st) ->
        Ext s (snd (fst (read_loop f limit off by_ s st))) /\ lost (s_fh (snd (read_loop f limit off by_ s st))).
      Proof.
        induction f as [|f IH]; intros limit s st L; cbn [read_loop]; [destruct limit as [[|n]|]; split; try apply Ext_refl; exact L|].
        assert (X : forall lim, let r := (match read_record st off with
              | (Ret it, st1) =>
                  match by_ s st1 it with
                  | (Ret true, s', st2) =>
                      match snd (fst it) with
                      | Some _ => read_loop f lim off by_ s' st2
                      | None => (Ret tt, s', st2)
                      end
                  | (Ret false, s', st2) => (Ret tt, s', st2)
                  | (Raise e, s', st2) => (Raise e, s', st2)
                  | (Diverge, s', st2) => (Diverge, s', st2)
                  end
              | (Raise e, st1) => (Raise e, s, st1)
              | (Diverge, st1) => (Diverge, s, st1)
              end) in Ext s (snd (fst r)) /\ lost (s_fh (snd r))).
        { intro lim. cbn zeta. pose proof (lost_later _ _ L (proj1 (read_record_later st off))) as L1.
          destruct (read_record st off) as [[it|e|] s1]; cbn [snd fst] in *; [|split; [apply Ext_refl|exact L1] ..].
          pose proof (lost_later _ _ L1 (Hbl s s1 it)) as L2. pose proof (Hbe s s1 it L1) as E.
          destruct (by_ s s1 it) as [[[[|]|e|] s'] s2]; cbn [snd fst] in *; try (split; [exact E|exact L2]).
          destruct (snd (fst it)); [|split; [exact E|exact L2]]. destruct (IH lim s' s2 L2) as [E' L']. split; [eapply Ext_trans; eassumption|exact L']. }
        destruct limit as [[|n]|]; [split; [apply Ext_refl|exact L]|apply X|apply X].
      Qed.
      Lemma ag_loop off : forall f limit s1 s2 x y, Rel s1 s2 -> Rst x y -> fits y ->
        agl (x_read_loop ops budget f limit off bx s1 x) (read_loop f limit off by_ s2 y).
      Proof.
        induction f as [|f IH]; intros limit s1 s2 x y HR H Hf; cbn [x_read_loop read_loop].
        { destruct limit as [[|n]|]; left; (split; [reflexivity|]); (split; [exact HR|]); intros _; exact H. }
        assert (X : forall lim, agl (match x_read_record ops budget x off with
              | (Ret it, st1) =>
                  match bx s1 st1 it with
                  | (Ret true, s', st2) =>
                      match snd (fst it) with
                      | Some _ => x_read_loop ops budget f lim off bx s' st2
                      | None => (Ret tt, s', st2)
                      end
                  | (Ret false, s', st2) => (Ret tt, s', st2)
                  | (Raise e, s', st2) => (Raise e, s', st2)
                  | (Diverge, s', st2) => (Diverge, s', st2)
                  end
              | (Raise e, st1) => (Raise e, s1, st1)
              | (Diverge, st1) => (Diverge, s1, st1)
              end) (match read_record y off with
              | (Ret it, st1) =>
                  match by_ s2 st1 it with
                  | (Ret true, s', st2) =>
                      match snd (fst it) with
                      | Some _ => read_loop f lim off by_ s' st2
                      | None => (Ret tt, s', st2)
                      end
                  | (Ret false, s', st2) => (Ret tt, s', st2)
                  | (Raise e, s', st2) => (Raise e, s', st2)
                  | (Diverge, s', st2) => (Diverge, s', st2)
                  end
              | (Raise e, st1) => (Raise e, s2, st1)
              | (Diverge, st1) => (Diverge, s2, st1)
              end)).
        { intro lim. pose proof (proj1 (read_record_later y off)) as L1.
          destruct (ag_record x y off H Hf) as [[E S]|(e & E & He & L)]; destruct (x_read_record ops budget x off) as [ox x1]; cbn [fst snd] in E; subst ox.
          - cbn [fst snd] in S. destruct (read_record y off) as [[it|e|] y1]; cbn [fst snd] in *.
            2,3: left; split; [reflexivity|]; split; [exact HR|]; intro C; cbn [fst snd] in *; apply S; first [discriminate|intro; apply C; reflexivity].
            specialize (S ltac:(discriminate)). pose proof (fits_later _ _ L1 Hf) as Hf1.
            pose proof (Hbl s2 y1 it) as L2. pose proof (fits_later _ _ L2 Hf1) as Hf2.
            destruct (Hb s1 s2 x1 y1 it HR S Hf1) as [(E & R2 & S2)|(e & s & E & He & R2 & X2 & L)]; destruct (bx s1 x1 it) as [[ob t1] x2]; cbn [fst snd] in E; subst ob.
            + destruct (by_ s2 y1 it) as [[[[|]|e|] t2] y2]; cbn [fst snd] in *.
              2-4: left; split; [reflexivity|]; split; [exact R2|]; intro C; cbn [fst snd] in *; apply S2; first [discriminate|intro; apply C; reflexivity].
              specialize (S2 ltac:(discriminate)). destruct (snd (fst it)); [|left; split; [reflexivity|]; split; [exact R2|]; intros _; exact S2].
              apply IH; assumption.
            + right. exists e, s. cbn [fst snd] in *. split; [reflexivity|]. split; [exact He|]. split; [exact R2|].
              destruct (by_ s2 y1 it) as [[[[|]|e'|] t2] y2]; cbn [fst snd] in *; try (split; [exact X2|]; intros _; apply L; discriminate).
              * specialize (L ltac:(discriminate)). destruct (snd (fst it)); [|split; [exact X2|]; intros _; exact L].
                destruct (loop_lost off f lim t2 y2 L) as [X3 L3]. split; [eapply Ext_trans; eassumption|intros _; exact L3].
              * split; [exact X2|]. intro C. contradiction C. reflexivity.
          - right. exists e, s2. cbn [fst snd]. split; [reflexivity|]. split; [exact He|]. split; [exact HR|].
            destruct (read_record y off) as [[it|e'|] y1]; cbn [fst snd] in *.
            2: split; [apply Ext_refl|]; intros _; apply L; discriminate.
            2: split; [apply Ext_refl|]; intro C; contradiction C; reflexivity.
            specialize (L ltac:(discriminate)). pose proof (lost_later _ _ L (Hbl s2 y1 it)) as L2. pose proof (Hbe s2 y1 it L) as X2.
            destruct (by_ s2 y1 it) as [[[[|]|e'|] t2] y2]; cbn [fst snd] in *; try (split; [exact X2|]; intros _; exact L2).
            destruct (snd (fst it)); [|split; [exact X2|]; intros _; exact L2].
            destruct (loop_lost off f lim t2 y2 L2) as [X3 L3]. split; [eapply Ext_trans; eassumption|intros _; exact L3]. }
        destruct limit as [[|n]|]; [left; split; [reflexivity|]; split; [exact HR|]; intros _; exact H|apply X|apply X].
      Qed.
    End Read.

    Section Iter.
      Variable bx : T1 -> fstream F -> record -> outcome unit * T1 * fstream F.
      Variable by_ : T2 -> stream -> record -> outcome unit * T2 * stream.
      Variable good : record -> Prop.
      Hypothesis Hgood : forall st b o r e, fst (read_record st b) = Ret (o, Some r, e) -> good r.
      Hypothesis Hb : forall s1 s2 x y it, good it -> Rel s1 s2 -> Rst x y -> fits y -> agl (bx s1 x it) (by_ s2 y it).
      Hypothesis Hbl : forall s st it, good it -> later st (snd (by_ s st it)).
      Hypothesis Hbe : forall s st it, good it -> lost (s_fh st) -> Ext s (snd (fst (by_ s st it))).
      Lemma iter_lost : forall f s st, lost (s_fh st) ->
        Ext s (snd (fst (iter_loop f by_ s st))) /\ lost (s_fh (snd (iter_loop f by_ s st))).
      Proof.
        induction f as [|f IH]; intros s st L; cbn [iter_loop]; [split; [apply Ext_refl|exact L]|].
        pose proof (lost_later _ _ L (proj1 (read_record_later st false))) as L1. pose proof (Hgood st false) as G.
        destruct (read_record st false) as [[[[o [r|]] e0]|e|] s1]; cbn [snd fst] in *; [| |split; [apply Ext_refl|exact L1] ..].
        - specialize (G _ _ _ eq_refl). pose proof (lost_later _ _ L1 (Hbl s s1 r G)) as L2. pose proof (Hbe s s1 r G L1) as E.
          destruct (by_ s s1 r) as [[[u|e|] s'] s2]; cbn [snd fst] in *; try (split; [exact E|exact L2]).
          destruct (IH s' s2 L2) as [E' L']. split; [eapply Ext_trans; eassumption|exact L'].
        - destruct e0; (split; [apply Ext_refl|exact L1]).
      Qed.
      Lemma ag_iter : forall f s1 s2 x y, Rel s1 s2 -> Rst x y -> fits y ->
        agl (x_iter_loop ops budget f bx s1 x) (iter_loop f by_ s2 y).
      Proof.
        induction f as [|f IH]; intros s1 s2 x y HR H Hf; cbn [x_iter_loop iter_loop].
        { left. split; [reflexivity|]. split; [exact HR|]. intros _; exact H. }
        pose proof (proj1 (read_record_later y false)) as L1. pose proof (Hgood y false) as G.
        destruct (ag_record x y false H Hf) as [[E S]|(e & E & He & L)]; destruct (x_read_record ops budget x false) as [ox x1]; cbn [fst snd] in E; subst ox.
        - cbn [fst snd] in S. destruct (read_record y false) as [[[[o [r|]] e0]|e|] y1]; cbn [fst snd] in *.
          3,4: left; split; [reflexivity|]; split; [exact HR|]; intro C; cbn [fst snd] in *; apply S; first [discriminate|intro; apply C; reflexivity].
          2: specialize (S ltac:(discriminate)); destruct e0; left; (split; [reflexivity|]); (split; [exact HR|]); intros _; exact S.
          specialize (S ltac:(discriminate)). specialize (G _ _ _ eq_refl). pose proof (fits_later _ _ L1 Hf) as Hf1.
          pose proof (Hbl s2 y1 r G) as L2. pose proof (fits_later _ _ L2 Hf1) as Hf2.
          destruct (Hb s1 s2 x1 y1 r G HR S Hf1) as [(E & R2 & S2)|(e & s & E & He & R2 & X2 & L)]; destruct (bx s1 x1 r) as [[ob t1] x2]; cbn [fst snd] in E; subst ob.
          + destruct (by_ s2 y1 r) as [[[u|e|] t2] y2]; cbn [fst snd] in *.
            2,3: left; split; [reflexivity|]; split; [exact R2|]; intro C; cbn [fst snd] in *; apply S2; first [discriminate|intro; apply C; reflexivity].
            apply IH; [exact R2|apply S2; discriminate|exact Hf2].
          + right. exists e, s. cbn [fst snd] in *. split; [reflexivity|]. split; [exact He|]. split; [exact R2|].
            destruct (by_ s2 y1 r) as [[[u|e'|] t2] y2]; cbn [fst snd] in *.
            * specialize (L ltac:(discriminate)). destruct (iter_lost f t2 y2 L) as [X3 L3]. split; [eapply Ext_trans; eassumption|intros _; exact L3].
            * split; [exact X2|]. intros _. apply L. discriminate.
            * split; [exact X2|]. intro C. contradiction C. reflexivity.
        - right. exists e, s2. cbn [fst snd]. split; [reflexivity|]. split; [exact He|]. split; [exact HR|].
          destruct (read_record y false) as [[[[o [r|]] e0]|e'|] y1]; cbn [fst snd] in *.
          4: split; [apply Ext_refl|]; intro C; contradiction C; reflexivity.
          2,3: split; [try destruct e0; apply Ext_refl|]; try destruct e0; intros _; apply L; discriminate.
          specialize (G _ _ _ eq_refl). specialize (L ltac:(discriminate)). pose proof (lost_later _ _ L (Hbl s2 y1 r G)) as L2. pose proof (Hbe s2 y1 r G L) as X2.
          destruct (by_ s2 y1 r) as [[[u|e'|] t2] y2]; cbn [fst snd] in *; try (split; [exact X2|]; intros _; exact L2).
          destruct (iter_lost f t2 y2 L2) as [X3 L3]. split; [eapply Ext_trans; eassumption|intros _; exact L3].
      Qed.
    End Iter.
  End Loops.
End Agree.
