(** The WARC parser as a function of the lines of the input: an I/O-free
    reformulation used in the proofs, proved equal to the model of the code for
    every input. *)
From Verif Require Export StreamFacts.

Definition nl_error (nl : bytes) (e : perr) : list perr :=
  if bytes_eqb nl CRLF then [] else [e].

(** a complete header: the list, the errors and the length after it *)
Definition finish (cur : bytes * list bytes) (hs : list header) (errs : list perr) (clen : Z)
  : list header * list perr * Z :=
  let value := join [32%N] (snd cur) in
  let '(errs', clen') := note_header (fst cur) value errs clen in
  (hs ++ [(fst cur, value)], errs', clen').

(** [cur]: the header whose continuation lines are being collected.  Result:
    headers, errors, content length and the number of bytes consumed; None when
    the code loops for ever. *)
Fixpoint hparse (ls : list bytes) (cur : option (bytes * list bytes))
    (hs : list header) (errs : list perr) (clen : Z)
  : option (list header * list perr * Z * nat) :=
  match ls with
  | [] => Some (match cur with
                | Some c => finish c hs errs clen
                | None => (hs, errs, clen)
                end, 0)
  | l :: t =>
      let start hs errs clen :=
        if blank_line l then Some (hs, errs, clen, length l)
        else match header_parts l with
             | None => None
             | Some (n, v, nl) =>
                 match hparse t (Some (strip n, [strip v])) hs (errs ++ nl_error nl (ErrHeaderNl nl)) clen with
                 | Some (r, k) => Some (r, length l + k)
                 | None => None
                 end
             end in
      match cur with
      | None => start hs errs clen
      | Some (n, vs) =>
          if cont_line l then
            match hparse t (Some (n, vs ++ [strip l])) hs (errs ++ nl_error (cont_nl l) (ErrFollowNl l (cont_nl l))) clen with
            | Some (r, k) => Some (r, length l + k)
            | None => None
            end
          else let '(hs', errs', clen') := finish (n, vs) hs errs clen in start hs' errs' clen'
      end
  end.

Definition ok_lines (ls : list bytes) : Prop := Forall (fun l => one_line l /\ l <> []) ls.
Lemma lines_ok s : ok_lines (lines_of s).
Proof. apply Forall_forall. intros l H. apply (lines_one_line s l H). Qed.

Lemma follow_loop_mono f : forall st l vs errs r st2, follow_loop f st l vs errs = (Ret r, st2) ->
  forall f', f <= f' -> follow_loop f' st l vs errs = (Ret r, st2).
Proof.
  induction f as [|f IHf]; intros st l vs errs r st2 E f' Hle; [discriminate|].
  destruct f' as [|f']; [lia|]. cbn [follow_loop] in *. destruct (re_match value_rx l); [|exact E].
  destruct (stream_readline st None) as [l' s']. apply (IHf _ _ _ _ _ _ E). lia.
Qed.
Lemma follow_loop_no_raise f : forall st l vs errs x st2, follow_loop f st l vs errs <> (Raise x, st2).
Proof.
  induction f as [|f IHf]; intros st l vs errs x st2; [discriminate|].
  cbn [follow_loop]. destruct (re_match value_rx l); [|discriminate]. destruct (stream_readline st None). apply IHf.
Qed.
Lemma find_version_mono f : forall st l off errs r s, find_version f st l off errs = (Ret r, s) ->
  forall f', f <= f' -> find_version f' st l off errs = (Ret r, s).
Proof.
  induction f as [|f IH]; intros st l off errs r s E f' Hle; [discriminate|]. destruct f' as [|f']; [lia|].
  cbn [find_version] in *. destruct l as [|c l]; [exact E|]. destruct (re_match version_rx (c :: l)); [exact E|].
  destruct (stream_readline st None) as [l' s'].
  destruct (re_test nl_rx (c :: l)); [apply (IH _ _ _ _ _ _ E); lia|].
  destruct (Nat.ltb _ _); [exact E|]. apply (IH _ _ _ _ _ _ E). lia.
Qed.
Lemma find_version_no_raise f : forall st l off errs x s, find_version f st l off errs <> (Raise x, s).
Proof.
  induction f as [|f IH]; intros st l off errs x s; [discriminate|].
  cbn [find_version]. destruct l as [|c l]; [discriminate|]. destruct (re_match version_rx (c :: l)); [discriminate|].
  destruct (stream_readline st None) as [l' s'].
  destruct (re_test nl_rx (c :: l)); [apply IH|]. destruct (Nat.ltb _ _); [discriminate|]. apply IH.
Qed.
Lemma header_loop_mono f : forall st l hs errs c r s, header_loop f st l hs errs c = (Ret r, s) ->
  forall f', f <= f' -> header_loop f' st l hs errs c = (Ret r, s).
Proof.
  induction f as [|f IH]; intros st l hs errs c r s E f' Hle; [discriminate|]. destruct f' as [|f']; [lia|].
  cbn [header_loop] in *. destruct l as [|c0 l]; [exact E|]. destruct (re_test nl_rx (c0 :: l)); [exact E|].
  destruct (re_match header_rx (c0 :: l)) as [g|]; [|apply (IH _ _ _ _ _ _ _ E); lia].
  destruct (stream_readline st None) as [l' s'].
  destruct (follow_loop f s' l' _ _) as [[[[vs e2] l2]|x|] s2] eqn:Ef; try discriminate.
  rewrite (follow_loop_mono _ _ _ _ _ _ _ Ef f') by lia.
  destruct (note_header _ _ _ _) as [e3 c3]. apply (IH _ _ _ _ _ _ _ E). lia.
Qed.
Lemma header_loop_no_raise f : forall st l hs errs c x s, header_loop f st l hs errs c <> (Raise x, s).
Proof.
  induction f as [|f IH]; intros st l hs errs c x s; [discriminate|].
  cbn [header_loop]. destruct l as [|c0 l]; [discriminate|]. destruct (re_test nl_rx (c0 :: l)); [discriminate|].
  destruct (re_match header_rx (c0 :: l)) as [g|]; [|apply IH].
  destruct (stream_readline st None) as [l' s'].
  destruct (follow_loop f s' l' _ _) as [[[[vs e2] l2]|y|] s2] eqn:Ef; [|exfalso; exact (follow_loop_no_raise _ _ _ _ _ _ _ Ef)|discriminate].
  destruct (note_header _ _ _ _) as [e3 c3]. apply IH.
Qed.

(** ** continuation lines *)
Fixpoint take_cont (ls : list bytes) : list bytes :=
  match ls with l :: t => if cont_line l then l :: take_cont t else [] | [] => [] end.
Fixpoint drop_cont (ls : list bytes) : list bytes :=
  match ls with l :: t => if cont_line l then drop_cont t else ls | [] => [] end.
Definition cont_errs (ls : list bytes) : list perr :=
  concat (map (fun l => nl_error (cont_nl l) (ErrFollowNl l (cont_nl l))) ls).

Lemma follow_loop_spec fuel : forall ls st vs errs,
  s_eoc st = None -> lines_of (rest st) = ls -> length ls < fuel ->
  let cs := take_cont ls in let ls' := drop_cont ls in
  follow_loop fuel (adv st (length (hd [] ls))) (hd [] ls) vs errs =
  (Ret (vs ++ map strip cs, errs ++ cont_errs cs, hd [] ls'),
   adv st (length (concat cs) + length (hd [] ls'))) /\
  lines_of (rest (adv st (length (concat cs)))) = ls'.
Proof.
  induction fuel as [|fuel IH]; intros ls st vs errs He Hl Hf; [lia|]. cbn zeta. cbn [follow_loop].
  assert (Hok : ok_lines ls) by (rewrite <- Hl; apply lines_ok).
  destruct ls as [|l t].
  - cbn [hd take_cont drop_cont]. 
    assert (E : re_match value_rx [] = None) by reflexivity. rewrite E.
    unfold cont_errs. cbn [map concat length app plus]. rewrite !app_nil_r. split; [reflexivity|]. rewrite adv_0. exact Hl.
  - inversion Hok as [|? ? [H1 H2] Hok']; subst. cbn [hd take_cont drop_cont].
    pose proof (value_rx_form l H1) as Hv. destruct (re_match value_rx l) as [g|] eqn:Eg.
    + destruct Hv as (Hc & Hs & Hn). rewrite Hc, Hs, Hn.
      set (st1 := adv st (length l)).
      assert (Ht : lines_of (rest st1) = t).
      { destruct (readline_lines st He) as [_ E]. rewrite Hl in E. exact E. }
      destruct (readline_lines st1 He) as [Er _]. rewrite Er, Ht.
      destruct (IH t st1 (vs ++ [strip l]) (errs ++ nl_error (cont_nl l) (ErrFollowNl l (cont_nl l))) He Ht ltac:(simpl in Hf; lia)) as [I1 I2].
      assert (Ee : (if bytes_eqb (cont_nl l) CRLF then errs else errs ++ [ErrFollowNl l (cont_nl l)]) =
                   errs ++ nl_error (cont_nl l) (ErrFollowNl l (cont_nl l))).
      { unfold nl_error. destruct (bytes_eqb (cont_nl l) CRLF); [rewrite app_nil_r; reflexivity|reflexivity]. }
      rewrite Ee, I1. unfold st1 in *. rewrite adv_adv in *. cbn [map concat]. rewrite app_length.
      unfold cont_errs. cbn [map concat]. rewrite <- !app_assoc, Nat.add_assoc.
      split; [reflexivity|]. exact I2.
    + rewrite Hv. unfold cont_errs. cbn [map concat length app plus hd]. rewrite !app_nil_r. split; [reflexivity|]. rewrite adv_0. exact Hl.
Qed.

Lemma hparse_cont ls : forall n vs hs errs clen,
  hparse ls (Some (n, vs)) hs errs clen =
  match (let '(hs', errs', clen') := finish (n, vs ++ map strip (take_cont ls)) hs (errs ++ cont_errs (take_cont ls)) clen in
         hparse (drop_cont ls) None hs' errs' clen') with
  | Some (r, k) => Some (r, length (concat (take_cont ls)) + k)
  | None => None
  end.
Proof.
  induction ls as [|l t IH]; intros n vs hs errs clen.
  - unfold cont_errs. cbn. rewrite !app_nil_r. destruct (finish (n, vs) hs errs clen) as [[a b] c]. reflexivity.
  - cbn [hparse take_cont drop_cont]. destruct (cont_line l) eqn:Ec.
    + rewrite IH. cbn [map concat]. unfold cont_errs. cbn [map concat]. rewrite <- !app_assoc. cbn [app].
      destruct (finish _ _ _ _) as [[a b] c].
      destruct (hparse (drop_cont t) None a b c) as [[r k]|]; [|reflexivity].
      rewrite app_length, Nat.add_assoc. reflexivity.
    + unfold cont_errs. cbn [map concat length]. rewrite !app_nil_r.
      destruct (finish (n, vs) hs errs clen) as [[a b] c].
      cbn [hparse]. destruct (blank_line l); [reflexivity|].
      destruct (header_parts l) as [[[n' v'] nl']|]; [|reflexivity].
      destruct (hparse t _ a _ c) as [[r k]|]; reflexivity.
Qed.
Lemma drop_cont_length ls : length (drop_cont ls) <= length ls.
Proof. induction ls as [|l t IH]; simpl; [lia|]. destruct (cont_line l); simpl; lia. Qed.

(** ** the header loop *)
Lemma header_loop_spec n : forall ls, length ls <= n -> forall st hs errs clen,
  s_eoc st = None -> lines_of (rest st) = ls ->
  match hparse ls None hs errs clen with
  | Some (r, k) => forall fuel, length ls < fuel ->
      header_loop fuel (adv st (length (hd [] ls))) (hd [] ls) hs errs clen = (Ret r, adv st k)
  | None => forall fuel, fst (header_loop fuel (adv st (length (hd [] ls))) (hd [] ls) hs errs clen) = Diverge
  end.
Proof.
  induction n as [|n IH]; intros ls Hn st hs errs clen He Hl.
  - destruct ls as [|l t]; [|simpl in Hn; lia]. cbn [hparse]. intros [|fuel] Hf; [simpl in Hf; lia|]. cbn [hd length header_loop]. rewrite adv_0. reflexivity.
  - destruct ls as [|l t].
    { cbn [hparse]. intros [|fuel] Hf; [simpl in Hf; lia|]. cbn [hd length header_loop]. rewrite adv_0. reflexivity. }
    assert (Hok : ok_lines (l :: t)) by (rewrite <- Hl; apply lines_ok).
    inversion Hok as [|? ? [H1 H2] Hok']; subst. cbn [hparse hd].
    destruct (blank_line l) eqn:Eb.
    { intros [|fuel] Hf; [simpl in Hf; lia|]. cbn [header_loop]. rewrite nl_rx_test, Eb. destruct l; reflexivity. }
    destruct (header_parts l) as [[[nm v] nl]|] eqn:Eh.
    2:{ induction fuel as [|fuel IHf]; [reflexivity|]. cbn [header_loop]. rewrite nl_rx_test, Eb, header_rx_form, Eh by exact H1.
        destruct l; [contradiction|]. exact IHf. }
    set (st1 := adv st (length l)).
    assert (Ht : lines_of (rest st1) = t).
    { destruct (readline_lines st He) as [_ E]. rewrite Hl in E. exact E. }
    assert (Estep : forall fuel, header_loop (S fuel) st1 l hs errs clen =
      match follow_loop fuel (adv st1 (length (hd [] t))) (hd [] t) [strip v] (errs ++ nl_error nl (ErrHeaderNl nl)) with
      | (Ret (values, errors2, line2), st2) =>
          let value := join [32%N] values in
          let '(errors3, clen') := note_header (strip nm) value errors2 clen in
          header_loop fuel st2 line2 (hs ++ [(strip nm, value)]) errors3 clen'
      | (Raise e, st2) => (Raise e, st2)
      | (Diverge, st2) => (Diverge, st2)
      end).
    { intro fuel. cbn [header_loop]. rewrite nl_rx_test, Eb, header_rx_form, Eh by exact H1.
      destruct l as [|c0 l0]; [contradiction|].
      destruct (readline_lines st1 He) as [Er _]. rewrite Er, Ht.
      change (group g_nl _) with nl. change (group g_name _) with nm. change (group g_value _) with v.
      unfold nl_error. destruct (bytes_eqb nl CRLF); [rewrite app_nil_r|]; reflexivity. }
    rewrite hparse_cont.
    destruct (finish (strip nm, [strip v] ++ map strip (take_cont t)) hs
                ((errs ++ nl_error nl (ErrHeaderNl nl)) ++ cont_errs (take_cont t)) clen) as [[hs' errs'] clen'] eqn:Ef.
    unfold finish in Ef. cbn [fst snd] in Ef.
    destruct (note_header (strip nm) (join [32%N] ([strip v] ++ map strip (take_cont t)))
                ((errs ++ nl_error nl (ErrHeaderNl nl)) ++ cont_errs (take_cont t)) clen) as [e3 c3] eqn:En3.
    injection Ef as <- <- <-.
    set (k1 := length (concat (take_cont t))).
    assert (Hdl : length (drop_cont t) <= n) by (pose proof (drop_cont_length t); simpl in Hn; lia).
    assert (Hls2 : lines_of (rest (adv st1 k1)) = drop_cont t).
    { destruct (follow_loop_spec (S (length t)) t st1 [] [] He Ht ltac:(lia)) as [_ E]. exact E. }
    pose proof (IH (drop_cont t) Hdl (adv st1 k1) (hs ++ [(strip nm, join [32%N] ([strip v] ++ map strip (take_cont t)))]) e3 c3 He Hls2) as IH'.
    destruct (hparse (drop_cont t) None _ e3 c3) as [[r k]|] eqn:Ehp.
    + intros [|fuel] Hf; [simpl in Hf; lia|]. rewrite Estep.
      destruct (follow_loop_spec fuel t st1 [strip v] (errs ++ nl_error nl (ErrHeaderNl nl)) He Ht ltac:(simpl in Hf; lia)) as [E1 _].
      rewrite E1. cbn zeta. rewrite En3. fold k1. rewrite <- adv_adv. rewrite IH'.
      * unfold st1. rewrite !adv_adv. rewrite Nat.add_assoc. reflexivity.
      * pose proof (drop_cont_length t). simpl in Hf. lia.
    + intros fuel. 
      assert (Hfl : forall fuel, (exists r st2, follow_loop fuel (adv st1 (length (hd [] t))) (hd [] t) [strip v] (errs ++ nl_error nl (ErrHeaderNl nl)) = (Ret r, st2)) ->
         follow_loop fuel (adv st1 (length (hd [] t))) (hd [] t) [strip v] (errs ++ nl_error nl (ErrHeaderNl nl)) =
         (Ret ([strip v] ++ map strip (take_cont t), (errs ++ nl_error nl (ErrHeaderNl nl)) ++ cont_errs (take_cont t), hd [] (drop_cont t)),
           adv st1 (k1 + length (hd [] (drop_cont t))))).
      { clear - He Ht. intros fuel (r & st2 & E).
        rewrite E.
        destruct (follow_loop_spec (S (length t) + fuel) t st1 [strip v] (errs ++ nl_error nl (ErrHeaderNl nl)) He Ht ltac:(lia)) as [E1 _].
        rewrite (follow_loop_mono _ _ _ _ _ _ _ E (S (length t) + fuel)) in E1 by lia. exact E1. }
      destruct fuel as [|fuel]; [reflexivity|]. fold st1. rewrite Estep.
      destruct (follow_loop fuel (adv st1 (length (hd [] t))) (hd [] t) [strip v] (errs ++ nl_error nl (ErrHeaderNl nl))) as [[r|e|] st2] eqn:Efl.
      * specialize (Hfl fuel (ex_intro _ r (ex_intro _ st2 Efl))). rewrite Efl in Hfl. injection Hfl as -> ->.
        cbn zeta. cbn [app] in En3, IH'. rewrite En3. rewrite <- adv_adv. apply IH'.
      * exfalso. exact (follow_loop_no_raise _ _ _ _ _ _ _ Efl).
      * reflexivity.
Qed.

(** ** Looking for the version line *)
(** inl: errors and bytes skipped, no record.  inr: prefix, version, number, line
    end; errors; bytes before the line; the line; the lines after it. *)
Fixpoint vfind (ls : list bytes) (errs : list perr)
  : (list perr * nat) + (bytes * bytes * bytes * bytes * list perr * nat * bytes * list bytes) :=
  match ls with
  | [] => inl (errs, 0)
  | l :: t =>
      let go errs := match vfind t errs with
                     | inl (e, n) => inl (e, length l + n)
                     | inr (p, v, num, nl, e, n, l', t') => inr (p, v, num, nl, e, length l + n, l', t')
                     end in
      match version_parts l with
      | Some (p, v, num, nl) => inr (p, v, num, nl, errs, 0, l, t)
      | None =>
          if blank_line l then go errs
          else let errs' := errs ++ [ErrIgnored l] in
               if Nat.ltb bad_lines (length errs') then inl (errs' ++ [ErrTooMany], length l)
               else go errs'
      end
  end.

Lemma add_off_add o a b : add_off (add_off o a) b = add_off o (a + b).
Proof. destruct o; simpl; [rewrite Nat.add_assoc|]; reflexivity. Qed.
Lemma add_off_0 o : add_off o 0 = o.
Proof. destruct o; simpl; [rewrite Nat.add_0_r|]; reflexivity. Qed.

Lemma find_version_spec ls : forall fuel st off errs,
  s_eoc st = None -> lines_of (rest st) = ls -> length ls < fuel ->
  match vfind ls errs with
  | inl (e, n) => find_version fuel (adv st (length (hd [] ls))) (hd [] ls) off errs =
                  (Ret (FNone (None, e, add_off off n)), adv st n)
  | inr (p, v, num, nl, e, n, l, t) =>
      find_version fuel (adv st (length (hd [] ls))) (hd [] ls) off errs =
      (Ret (FVersion [(g_nl, nl); (g_version, v); (g_number, num); (g_prefix, p)] (add_off off (n + length p)) e),
       adv st (n + length l)) /\ lines_of (rest (adv st (n + length l))) = t /\ one_line l /\ version_parts l = Some (p, v, num, nl)
  end.
Proof.
  induction ls as [|l t IH]; intros fuel st off errs He Hl Hf; (destruct fuel as [|fuel]; [simpl in Hf; lia|]); cbn [vfind hd find_version].
  - rewrite add_off_0. reflexivity.
  - assert (Hok : ok_lines (l :: t)) by (rewrite <- Hl; apply lines_ok).
    inversion Hok as [|? ? [H1 H2] Hok']; subst.
    assert (Ht : lines_of (rest (adv st (length l))) = t).
    { destruct (readline_lines st He) as [_ E]. rewrite Hl in E. exact E. }
    rewrite version_rx_form by exact H1. rewrite nl_rx_test.
    destruct (version_parts l) as [[[[p v] num] nl]|] eqn:Ev.
    { destruct l; [contradiction|]. change (group g_prefix _) with p. cbn [plus]. auto. }
    assert (Estep : forall errs1, (match vfind t errs1 with
       | inl (e, n) => find_version fuel (snd (stream_readline (adv st (length l)) None)) (fst (stream_readline (adv st (length l)) None)) (add_off off (length l)) errs1
             = (Ret (FNone (None, e, add_off off (length l + n))), adv st (length l + n))
       | inr (p, v, num, nl, e, n, l', t') =>
            find_version fuel (snd (stream_readline (adv st (length l)) None)) (fst (stream_readline (adv st (length l)) None)) (add_off off (length l)) errs1
             = (Ret (FVersion [(g_nl, nl); (g_version, v); (g_number, num); (g_prefix, p)] (add_off off (length l + n + length p)) e),
                adv st (length l + n + length l')) /\ lines_of (rest (adv st (length l + n + length l'))) = t' /\ one_line l' /\ version_parts l' = Some (p, v, num, nl)
       end)).
    { intro errs1. specialize (IH fuel (adv st (length l)) (add_off off (length l)) errs1 He Ht ltac:(simpl in Hf; lia)).
      destruct (readline_lines (adv st (length l)) He) as [Er _]. rewrite Er, Ht. cbn [fst snd].
      destruct (vfind t errs1) as [[e n]|[[[[[[[p v] num] nl] e] n] l'] t']].
      - rewrite IH, adv_adv, add_off_add. reflexivity.
      - rewrite !adv_adv, add_off_add, !Nat.add_assoc in IH. rewrite adv_adv. exact IH. }
    assert (Efv : forall errs1, (let '(line', st') := stream_readline (adv st (length l)) None in
            find_version fuel st' line' (add_off off (length l)) errs1) =
            find_version fuel (snd (stream_readline (adv st (length l)) None)) (fst (stream_readline (adv st (length l)) None)) (add_off off (length l)) errs1).
    { intro errs1. destruct (stream_readline (adv st (length l)) None). reflexivity. }
    destruct l as [|c0 l0] eqn:El; [contradiction|]. rewrite <- El in *.
    destruct (blank_line l).
    + rewrite Efv. specialize (Estep errs). destruct (vfind t errs) as [[e n]|[[[[[[[p v] num] nl] e] n] l'] t']]; exact Estep.
    + destruct (Nat.ltb bad_lines (length (errs ++ [ErrIgnored l]))); [reflexivity|].
      rewrite Efv. specialize (Estep (errs ++ [ErrIgnored l])).
      destruct (vfind t (errs ++ [ErrIgnored l])) as [[e n]|[[[[[[[p v] num] nl] e] n] l'] t']]; exact Estep.
Qed.

(** ** One record *)
Inductive wres : Type :=
| WNone (errs : list perr) (n : nat)          (* no record; bytes consumed *)
| WRec (r : record) (clen : Z) (start n : nat) (* record, length, offset, bytes consumed *)
| WBadVersion (num : bytes)
| WHang.
Definition wparse (ls : list bytes) : wres :=
  match vfind ls [] with
  | inl (errs, n) => WNone errs n
  | inr (p, v, num, nl, errs, n, l, t) =>
      if in_list num KNOWN_VERSIONS then
        let errs2 := (errs ++ nl_error nl (ErrVersionNl nl)) ++ (match p with [] => [] | _ => [ErrPrefix p] end) in
        match hparse t None [] errs2 0%Z with
        | Some (hs, e, clen, k) =>
            WRec (mkrec (RWarc v) hs e None CF_stream true) clen (n + length p) (n + length l + k)
        | None => WHang
        end
      else WBadVersion num
  end.
Lemma warc_parse_spec ls st off fuel :
  s_eoc st = None -> lines_of (rest st) = ls -> length ls < fuel ->
  let res := warc_parse_fuel fuel (adv st (length (hd [] ls))) off (Some (hd [] ls)) in
  match wparse ls with
  | WNone errs n => res = (Ret (None, errs, add_off off n), adv st n)
  | WRec r clen s n => res = (Ret (Some r, [], add_off off s), set_eoc (adv st n) (Some clen))
  | WBadVersion num => fst res = Raise ETypeError
  | WHang => fst res = Diverge
  end.
Proof.
  intros He Hl Hf. cbn zeta. unfold warc_parse_fuel, wparse.
  pose proof (find_version_spec ls fuel st off [] He Hl Hf) as Hv.
  destruct (vfind ls []) as [[e n]|[[[[[[[p v] num] nl] e] n] l] t]] eqn:Evf; [rewrite Hv; reflexivity|].
  destruct Hv as (Hv & Ht & _). rewrite Hv.
  change (group g_number _) with num. change (group g_nl _) with nl. change (group g_prefix _) with p. change (group g_version _) with v.
  destruct (in_list num KNOWN_VERSIONS); [|reflexivity].
  set (st1 := adv st (n + length l)) in *.
  assert (Eerr : match p with [] => if bytes_eqb nl CRLF then e else e ++ [ErrVersionNl nl]
                  | a0 :: b0 => (if bytes_eqb nl CRLF then e else e ++ [ErrVersionNl nl]) ++ [ErrPrefix (a0 :: b0)] end =
                 (e ++ nl_error nl (ErrVersionNl nl)) ++ match p with [] => [] | _ :: _ => [ErrPrefix p] end).
  { unfold nl_error. destruct p; destruct (bytes_eqb nl CRLF); rewrite ?app_nil_r; reflexivity. }
  destruct (readline_lines st1 He) as [Er _]. rewrite Er, Ht.
  assert (Hlen : length t < fuel).
  { clear - Evf Hf. assert (Hb : forall ls errs p v num nl e n l t, vfind ls errs = inr (p, v, num, nl, e, n, l, t) -> length t <= length ls).
    { clear. induction ls as [|x ls IH]; intros errs p v num nl e n l t H; cbn [vfind] in H; [discriminate|].
      destruct (version_parts x) as [[[[p0 v0] num0] nl0]|]; [injection H as; subst; simpl; lia|].
      destruct (blank_line x).
      - destruct (vfind ls errs) as [[]|[[[[[[[p0 v0] num0] nl0] e0] n0] l0] t0]] eqn:E; [discriminate|].
        injection H as; subst. apply IH in E. simpl. lia.
      - destruct (Nat.ltb _ _); [discriminate|].
        destruct (vfind ls (errs ++ [ErrIgnored x])) as [[]|[[[[[[[p0 v0] num0] nl0] e0] n0] l0] t0]] eqn:E; [discriminate|].
        injection H as; subst. apply IH in E. simpl. lia. }
    apply Hb in Evf. lia. }
  pose proof (header_loop_spec (length t) t (le_n _) st1 []
     ((e ++ nl_error nl (ErrVersionNl nl)) ++ match p with [] => [] | _ :: _ => [ErrPrefix p] end) 0%Z He Ht) as Hh.
  rewrite Eerr.
  destruct (hparse t None [] _ 0%Z) as [[[[hs e'] clen] k]|] eqn:Ehp.
  - rewrite Hh by exact Hlen. unfold st1. rewrite adv_adv. reflexivity.
  - specialize (Hh fuel). destruct (header_loop fuel _ _ _ _ _) as [[r|x|] s3]; cbn [fst] in Hh; try discriminate. reflexivity.
Qed.
(** the endless loop does not depend on fuel *)
Lemma warc_parse_hang ls st off : s_eoc st = None -> lines_of (rest st) = ls -> wparse ls = WHang ->
  forall fuel, fst (warc_parse_fuel fuel (adv st (length (hd [] ls))) off (Some (hd [] ls))) = Diverge.
Proof.
  intros He Hl Hw fuel. 
  pose proof (warc_parse_spec ls st off (fuel + S (length ls)) He Hl ltac:(lia)) as H. cbn zeta in H. rewrite Hw in H.
  unfold warc_parse_fuel in *.
  destruct (find_version fuel (adv st (length (hd [] ls))) (hd [] ls) off []) as [[r|x|] s1] eqn:Ef; [|exfalso; exact (find_version_no_raise _ _ _ _ _ _ _ Ef)|reflexivity].
  rewrite (find_version_mono _ _ _ _ _ _ _ Ef (fuel + S (length ls)) ltac:(lia)) in H.
  destruct r as [p|g off' errs]; [discriminate|].
  destruct (in_list (group g_number g) KNOWN_VERSIONS); [|discriminate].
  destruct (stream_readline s1 None) as [l1 s2].
  destruct (header_loop fuel s2 l1 [] _ 0%Z) as [[[[hs e3] cl]|x|] s3] eqn:Eh; [|exfalso; exact (header_loop_no_raise _ _ _ _ _ _ _ _ Eh)|reflexivity].
  rewrite (header_loop_mono _ _ _ _ _ _ _ _ Eh (fuel + S (length ls)) ltac:(lia)) in H. discriminate.
Qed.

(** ** read_record on a WARC stream *)
Fixpoint after_blank (ls : list bytes) : list bytes :=
  match ls with
  | [] => []
  | l :: t => if crlf_only l then after_blank t else ls
  end.
Lemma first_text_after ls : first_text ls = hd [] (after_blank ls).
Proof. induction ls as [|l t IH]; [reflexivity|]. simpl. destruct (crlf_only l); [exact IH|reflexivity]. Qed.
Lemma blank_lines_split ls : exists bs, ls = bs ++ after_blank ls /\ length (concat bs) = blank_lines ls.
Proof. induction ls as [|l t (bs & E & L)]; [exists []; auto|]. simpl. destruct (crlf_only l).
  - exists (l :: bs). simpl. rewrite app_length, L. split; [congruence|reflexivity].
  - exists []. auto. Qed.
Lemma lines_of_skip_lines s n bs ls : lines_of s = bs ++ ls -> n = length (concat bs) -> lines_of (skipn n s) = ls.
Proof.
  intros E ->. revert s E. induction bs as [|b bs IH]; intros s E; [exact E|].
  cbn [concat]. rewrite app_length, <- skipn_skipn'.
  assert (Eb : b = take_line s) by (rewrite take_line_hd, E; reflexivity).
  apply IH. rewrite Eb, lines_of_rest, E. reflexivity.
Qed.
Lemma after_blank_length ls : length (after_blank ls) <= length ls.
Proof. induction ls as [|l t IH]; simpl; [lia|]. destruct (crlf_only l); simpl; lia. Qed.

Definition item_offset (k : skind) (b : bool) (o : nat) : option nat :=
  match k with SPlain => if b then Some o else None | _ => None end.

Lemma read_record_warc st b :
  s_eoc st = None -> s_parser st = PWarc -> s_kind st <> SGzipFile ->
  let ls := lines_of (rest st) in
  let st1 := adv st (blank_lines ls) in
  let off s := item_offset (s_kind st) b (pos st + blank_lines ls + s) in
  match wparse (after_blank ls) with
  | WNone errs n => read_record st b = (Ret (off n, None, errs), adv st1 n)
  | WRec r clen s n => read_record st b = (Ret (off s, Some r, []), set_eoc (adv st1 n) (Some clen))
  | WBadVersion num => fst (read_record st b) = Raise ETypeError
  | WHang => fst (read_record st b) = Diverge
  end.
Proof.
  intros He Hp Hk. cbn zeta. set (ls := lines_of (rest st)). set (k := blank_lines ls).
  unfold read_record. rewrite He.
  assert (Est : set_eoc st None = st) by (rewrite <- He; apply set_eoc_eta). rewrite Est.
  rewrite (skip_blank_eq (s_fh st)). change (lines_of (f_rest (s_fh st))) with ls. fold k.
  set (st1 := adv st k).
  assert (Hls1 : lines_of (rest st1) = after_blank ls).
  { destruct (blank_lines_split ls) as (bs & E & L). unfold st1. rewrite rest_adv.
    apply (lines_of_skip_lines _ _ bs); [exact E|]. symmetry. exact L. }
  assert (Eadv : set_fh st (f_advance (s_fh st) (k + length (first_text ls))) = adv st1 (length (hd [] (after_blank ls)))).
  { rewrite <- first_text_after. unfold st1. rewrite adv_adv. reflexivity. }
  rewrite Eadv, first_text_after. unfold run_parser.
  change (s_parser (adv st1 ?n)) with (s_parser st). rewrite Hp.
  assert (Hlen : length (after_blank ls) < file_fuel (s_fh (adv st1 (length (hd [] (after_blank ls)))))).
  { rewrite fuel_adv. unfold st1. rewrite fuel_adv. pose proof (rest_fuel st). pose proof (lines_length (rest st)).
    pose proof (after_blank_length ls). unfold ls in *. lia. }
  set (o := match s_kind st with SPlain => if b then Some (f_tell (s_fh st) + k) else None | _ => None end).
  pose proof (warc_parse_spec (after_blank ls) st1 o _ He Hls1 Hlen) as H. cbn zeta in H.
  assert (Hoff : forall s, match s_kind st with SPlain => add_off o s | _ => None end = item_offset (s_kind st) b (pos st + k + s)).
  { intro s. unfold o, item_offset. destruct (s_kind st); try reflexivity. destruct b; reflexivity. }
  unfold warc_parse.
  match type of H with context [warc_parse_fuel ?a ?b ?c ?d] =>
    match goal with |- context [warc_parse_fuel ?a' ?b' ?c' ?d'] =>
      change (warc_parse_fuel a' b' c' d') with (warc_parse_fuel a b c d) end;
    destruct (warc_parse_fuel a b c d) as [res s4] end.
  destruct (wparse (after_blank ls)) as [errs n|r clen s n|num|].
  - injection H as -> ->. rewrite <- Hoff. destruct (s_kind st); [reflexivity|reflexivity|contradiction].
  - injection H as -> ->. rewrite <- Hoff. destruct (s_kind st); [reflexivity|reflexivity|contradiction].
  - cbn [fst] in H. subst res. reflexivity.
  - cbn [fst] in H. subst res. reflexivity.
Qed.
