(** C76: warcindex, warcdump and warcextract on any file whatsoever. *)
From Verif Require Export PropsDump PropsPayload PropsAnyFile.
From Coq Require Import String List Lia ZArith.
Open Scope list_scope.

(** ** Specification *)
(** a run over any text that stands at byte [pos] of a file, telling [visit] where each record is, and [fin] - at the end -
    where the file ended and what was ignored there; [visit]'s effect is that of C74 *)
Inductive show_run (shown : bool) (visit : option nat -> reading -> bytes -> effect) (fin : option nat -> list perr -> bytes) : nat -> bytes -> bytes -> outcome unit -> Prop :=
| show_end : forall pos text,                                     (* no further record, and the file ends *)
    Forall (fun l => version_line l = false) (lines_of text) -> List.length (junk_lines (lines_of text)) <= 5 ->
    show_run shown visit fin pos text (fin (told shown (pos + List.length text)) (map ErrIgnored (junk_lines (lines_of text)))) (Ret tt)
| show_junk : forall pos text before line more,                   (* more than five lines of junk *)
    lines_of text = before ++ line :: more -> Forall (fun l => version_line l = false) (before ++ [line]) ->
    List.length (junk_lines before) = 5 -> blank_text line = false ->
    show_run shown visit fin pos text
      (fin (told shown (pos + List.length (concat (before ++ [line])))) (map ErrIgnored (junk_lines (before ++ [line])) ++ [ErrTooMany])) (Ret tt)
| show_version : forall pos text before vline block pfx ws tag num nl,
    lines_of text = before ++ vline :: block -> Forall (fun l => version_line l = false) before -> List.length (junk_lines before) <= 5 ->
    version_as vline pfx ws tag num nl -> ~ In num known_numbers ->
    show_run shown visit fin pos text [] (Raise ETypeError)
| show_hang : forall pos text before vline block pfx ws tag num nl,
    lines_of text = before ++ vline :: block -> Forall (fun l => version_line l = false) before -> List.length (junk_lines before) <= 5 ->
    version_as vline pfx ws tag num nl -> In num known_numbers -> stuck false block ->
    show_run shown visit fin pos text [] Diverge
| show_fails : forall pos text r more (e : effect),               (* the tool itself gives up on the record *)
    reads_as (lines_of text) r more -> e = visit (told shown (pos + List.length (concat (rd_before r)) + List.length (rd_pfx r))) r (concat more) ->
    e_end e <> Ret tt ->
    show_run shown visit fin pos text (e_out e) (e_end e)
| show_short : forall pos text r more (e : effect),               (* the file ends inside the payload *)
    reads_as (lines_of text) r more -> e = visit (told shown (pos + List.length (concat (rd_before r)) + List.length (rd_pfx r))) r (concat more) ->
    e_end e = Ret tt -> (Z.of_nat (List.length (e_text e)) < e_due e)%Z ->
    show_run shown visit fin pos text (e_out e) (Raise E_short)
| show_record : forall pos text r more (e : effect) used body after out o,      (* a record, and what follows *)
    reads_as (lines_of text) r more -> e = visit (told shown (pos + List.length (concat (rd_before r)) + List.length (rd_pfx r))) r (concat more) ->
    e_end e = Ret tt -> concat more = used ++ e_text e -> e_text e = body ++ after -> Z.of_nat (List.length body) = Z.max 0 (e_due e) ->
    show_run shown visit fin (pos + List.length (concat (rd_lines r)) + List.length used + List.length body) after out o ->
    show_run shown visit fin pos text (e_out e ++ out) o.

(** warcindex: the Content-Length shown is that of the header, the first one; the payload is read only if a header is missing *)
Definition index_entry (name : bytes) (off : option nat) (w : wrec) (len : bytes) : bytes :=
  name ++ B " " ++ show_offset off ++ B " " ++ field_or_dash (header_of "WARC-Type" w) ++ B " " ++
  field_or_dash (header_of "WARC-Target-URI" w) ++ B " " ++ field_or_dash (header_of "WARC-Record-ID" w) ++ B " " ++
  field_or_dash (header_of "Content-Type" w) ++ B " " ++ len ++ [LF].
Definition index_visit (strict : bool) (name : bytes) (off : option nat) (r : reading) (rest : bytes) : effect :=
  match header_of "Content-Type" (rd_wrec r []), header_of "Content-Length" (rd_wrec r []) with
  | Some _, Some v =>
      match py_int 10 v with
      | Some n => mkeffect (index_entry name off (rd_wrec r []) (dec_Z n)) (Ret tt) rest (due r)
      | None => mkeffect [] (Raise EValueError) [] 0%Z
      end
  | _, _ => with_content strict r rest (fun w => (index_entry name off w (dec_nat (List.length (w_body w))), Ret tt))
  end.
(** warcdump *)
Definition dump_visit (strict : bool) (name : bytes) (off : option nat) (r : reading) (rest : bytes) : effect :=
  let title := B "archive record at " ++ name ++ B ":" ++ show_offset off in
  match whole strict r rest with
  | None => mkeffect (text_of (title :: B "Headers:" :: map (fun h => TAB :: fst h ++ B ":" ++ snd h) (rd_headers r))) (Raise EValueError) [] 0%Z
  | Some (p, more, d) =>
      match header_of "Content-Type" (rd_wrec r []) with
      | None => mkeffect (text_of (title :: header_lines (rd_headers r))) (Raise EAttributeError) [] 0%Z
      | Some ct =>
          match rd_errors r with
          | [] => mkeffect (text_of (title :: dump_lines (rd_headers r) ct p)) (Ret tt) more d
          | _ => mkeffect (text_of (title :: dump_lines (rd_headers r) ct p ++ [B "Errors:"])) (Raise ETypeError) [] 0%Z
          end
      end
  end.
Definition dump_fin (name : bytes) (off : option nat) (errs : list perr) : bytes :=
  match errs with
  | [] => text_of tail_note
  | _ => text_of ((B "warc errors at " ++ name ++ B ":" ++ dec_nat (match off with Some n => n | None => 0 end)) :: error_lines errs)
  end.
(** warcextract and warcpayload: only the first record behind the place asked for; [visit] tells what is written and how the run ends *)
Inductive first_run (visit : reading -> bytes -> bytes * outcome unit) : bytes -> bytes -> outcome unit -> Prop :=
| first_end : forall text, Forall (fun l => version_line l = false) (lines_of text) -> junk_lines (lines_of text) = [] -> first_run visit text [] (Ret tt)
| first_junk_end : forall text, Forall (fun l => version_line l = false) (lines_of text) -> 1 <= List.length (junk_lines (lines_of text)) <= 5 ->
    first_run visit text [] (Raise ENameError)
| first_junk : forall text before line more, lines_of text = before ++ line :: more -> Forall (fun l => version_line l = false) (before ++ [line]) ->
    List.length (junk_lines before) = 5 -> blank_text line = false -> first_run visit text [] (Raise ENameError)
| first_version : forall text before vline block pfx ws tag num nl,
    lines_of text = before ++ vline :: block -> Forall (fun l => version_line l = false) before -> List.length (junk_lines before) <= 5 ->
    version_as vline pfx ws tag num nl -> ~ In num known_numbers -> first_run visit text [] (Raise ETypeError)
| first_hang : forall text before vline block pfx ws tag num nl,
    lines_of text = before ++ vline :: block -> Forall (fun l => version_line l = false) before -> List.length (junk_lines before) <= 5 ->
    version_as vline pfx ws tag num nl -> In num known_numbers -> stuck false block -> first_run visit text [] Diverge
| first_record : forall text r more, reads_as (lines_of text) r more ->
    first_run visit text (fst (visit r (concat more))) (snd (visit r (concat more))).
(** warcextract: the payload, or as much as there is *)
Definition extract_visit (r : reading) (rest : bytes) : bytes * outcome unit :=
  match whole true r rest with Some (p, _, _) => (p, Ret tt) | None => ([], Raise EValueError) end.
(** warcpayload: responses are handed to the HTTP client, other payloads copied piece by piece *)
Definition copied_out (r : reading) (rest : bytes) : bytes * outcome unit :=
  match whole true r rest with
  | Some (p, _, _) => (p, if (due r <? 0)%Z && negb (bytes_eqb p []) then Raise EValueError else Ret tt)
  | None => ([], Raise EValueError)
  end.
Definition payload_visit (client : bytes -> outcome bytes) (r : reading) (rest : bytes) : bytes * outcome unit :=
  if is_resp r then
    match header_of "Content-Type" (rd_wrec r []) with
    | None => ([], match whole true r rest with Some _ => Raise EAttributeError | None => Raise EValueError end)
    | Some ct =>
        if startswith (B "application/http") ct
        then match whole true r rest with Some (p, _, _) => if_returns (client p) (fun d => d) | None => ([], Raise EValueError) end
        else copied_out r rest
    end
  else copied_out r rest.

(** ** Lemmas *)
Definition inside_at (gz strict : bool) (st : stream) (p : nat) (d : Z) (text : bytes) : Prop := inside gz strict st d text /\ f_pos (s_fh st) = p.
Definition lists (P : bytes -> Prop) (gz strict : bool) (body : bytes -> stream -> item -> outcome bool * bytes * stream)
    (visit : option nat -> reading -> bytes -> effect) (fin : option nat -> list perr -> bytes) : Prop :=
  (forall off r rest out st p, P rest -> inside_at gz strict st p (due r) rest -> let e := visit off r rest in
   exists st', body out st (off, Some (rd_record r), []) = (omap (fun _ => true) (e_end e), out ++ e_out e, st') /\
     (e_end e = Ret tt -> exists used, rest = used ++ e_text e /\ inside_at gz strict st' (p + List.length used) (e_due e) (e_text e))) /\
  (forall off errs out st, exists st', body out st (off, None, errs) = (Ret true, out ++ fin off errs, st')).
Lemma read_moves st c d st' : stream_read st c = (Ret d, st') -> f_pos (s_fh st') = f_pos (s_fh st) + List.length d.
Proof.
  unfold stream_read. generalize (bounded st c). intros o H. unfold raw_read in H. destruct o as [n|].
  - unfold f_read in H. destruct (n <? 0)%Z; [destruct ((n =? -1)%Z || _); [|discriminate]|]; inversion H; subst; reflexivity.
  - inversion H; subst; reflexivity.
Qed.
Lemma whole_parts strict r rest p more d : whole strict r rest = Some (p, more, d) -> rest = p ++ more.
Proof.
  unfold whole. destruct (0 <=? due r)%Z; [intro H; injection H as <- <- _; symmetry; apply firstn_skipn|].
  destruct (_ || _); [|discriminate]. intro H. injection H as <- <- _. rewrite app_nil_r. reflexivity.
Qed.
Lemma content_at gz strict r rest st p : inside_at gz strict st p (due r) rest ->
  match whole strict r rest with
  | Some (x, more, d) => exists r' st', rec_content (rd_record r) st = (Ret (ctype (rd_wrec r x), Some x), r', st') /\ in_memory r' (rd_wrec r x) /\ r_errors r' = rd_errors r /\
      inside_at gz strict st' (p + List.length x) d more
  | None => exists r' st', rec_content (rd_record r) st = (Raise EValueError, r', st')
  end.
Proof.
  intros [Hi Hp]. pose proof (content_whole gz strict r rest st Hi) as C. destruct (whole strict r rest) as [[[x more] d]|]; [|exact C].
  destruct C as (r' & st' & E & Hm & Hi'). exists r', st'. split; [exact E|]. split; [exact Hm|].
  unfold rec_content in E. cbn [rd_record r_content r_cf] in E. destruct (stream_read st None) as [[y|e|] s2] eqn:Es; [|discriminate|discriminate].
  assert (X : y = x /\ s2 = st' /\ r_errors r' = rd_errors r). { inversion E; subst. repeat split. }
  destruct X as (-> & -> & Er). split; [exact Er|]. split; [exact Hi'|]. rewrite (read_moves _ _ _ _ Es), Hp. reflexivity.
Qed.
Lemma ready_item gz st pos text b r more : ready_on gz st pos text -> reads_as (lines_of text) r more ->
  exists st1, read_record st b = (Ret (told (b && negb gz) (pos + List.length (concat (rd_before r)) + List.length (rd_pfx r)), Some (rd_record r), []), st1) /\
    inside_at gz (f_strict (s_fh st)) st1 (pos + List.length (concat (rd_lines r))) (due r) (concat more).
Proof.
  intros Hr Ha. destruct (C71_reading_gives_record gz st pos text b r more Hr Ha) as (st1 & E & He & Hre & Hpos & Hk & Hp & _ & Hs).
  eexists. split; [exact E|]. split; [|exact Hpos]. split; [rewrite Hk; exact (proj1 Hr)|]. split; [exact Hp|]. split; [exact He|]. split; [exact Hre|exact Hs].
Qed.

Lemma reads_text text r more : reads_as (lines_of text) r more -> text = concat (rd_lines r) ++ concat more.
Proof. intros (El & _). transitivity (concat (lines_of text)); [symmetry; apply concat_lines|]. rewrite El. apply concat_app. Qed.
Lemma show_loop (P : bytes -> Prop) gz strict body visit fin pos text out o b : (forall x y, P (x ++ y) -> P y) -> lists P gz strict body visit fin -> show_run (b && negb gz) visit fin pos text out o ->
  forall fuel st st0 acc, P text -> read_record st b = read_record st0 b -> ready_on gz st0 pos text -> f_strict (s_fh st0) = strict -> List.length text < fuel ->
  exists st', read_loop fuel None b body acc st = (o, acc ++ out, st').
Proof.
  intros HP [Hb Hfin] H. induction H as [pos text Hv H5|pos text before l t El Hb1 Hb2 Hl|pos text before l t pfx ws tag num nl El Hb1 Hb2 Has Hn
    |pos text before l t pfx ws tag num nl El Hb1 Hb2 Has Hn Hs|pos text r more e Hra Ee He|pos text r more e Hra Ee He Hlt|pos text r more e used body0 after out o Hra Ee He Eu Em Hd Hrun IH];
    intros fuel st st0 acc HPt Hst Hrd Hstr Hf; (destruct fuel as [|fuel]; [lia|]); cbn [read_loop]; rewrite Hst.
  - pose proof (answer_end gz _ _ _ b Hrd Hv H5) as E. destruct (read_record st0 b) as [a st1]. cbn [fst] in E. subst a.
    match goal with |- context [body acc st1 (?off, None, ?errs)] => destruct (Hfin off errs acc st1) as [st2 E2] end. rewrite E2. cbn [fst snd]. eauto.
  - pose proof (answer_junk gz _ _ _ b _ _ _ Hrd El Hb1 Hb2 Hl) as E. destruct (read_record st0 b) as [a st1]. cbn [fst] in E. subst a.
    match goal with |- context [body acc st1 (?off, None, ?errs)] => destruct (Hfin off errs acc st1) as [st2 E2] end. rewrite E2. cbn [fst snd]. eauto.
  - pose proof (answer_version gz _ _ _ b _ _ _ _ _ _ _ _ Hrd El Hb1 Hb2 Has Hn) as E. destruct (read_record st0 b) as [a st1]. cbn [fst] in E. subst a. rewrite app_nil_r. eauto.
  - pose proof (answer_hang gz _ _ _ b _ _ _ _ _ _ _ _ Hrd El Hb1 Hb2 Has Hn Hs) as E. destruct (read_record st0 b) as [a st1]. cbn [fst] in E. subst a. rewrite app_nil_r. eauto.
  - assert (HPm : P (concat more)). { apply (HP (concat (rd_lines r))). rewrite <- (reads_text _ _ _ Hra). exact HPt. }
    destruct (ready_item gz st0 pos text b r more Hrd Hra) as (st1 & E & Hi). rewrite Hstr in Hi. rewrite E.
    destruct (Hb (told (b && negb gz) (pos + List.length (concat (rd_before r)) + List.length (rd_pfx r))) r (concat more) acc st1 _ HPm Hi) as (st2 & E2 & _). rewrite E2, <- Ee. destruct (e_end e) as [[]|x|]; [congruence| |]; cbn [omap]; eauto.
  - assert (HPm : P (concat more)). { apply (HP (concat (rd_lines r))). rewrite <- (reads_text _ _ _ Hra). exact HPt. }
    destruct (ready_item gz st0 pos text b r more Hrd Hra) as (st1 & E & Hi). rewrite Hstr in Hi. rewrite E.
    destruct (Hb (told (b && negb gz) (pos + List.length (concat (rd_before r)) + List.length (rd_pfx r))) r (concat more) acc st1 _ HPm Hi) as (st2 & E2 & H2). rewrite <- Ee in E2, H2. rewrite E2, He. cbn [omap fst snd]. destruct (H2 He) as (used & Eu & (Hk2 & Hp2 & He2 & Hr2 & _) & _).
    pose proof (reads_as_uses _ _ _ Hra) as Hu. rewrite concat_lines in Hu. destruct fuel as [|fuel]; [lia|]. cbn [read_loop].
    destruct (read_record_short st2 b (Z.to_nat (e_due e))) as [st3 ->]; [rewrite He2; f_equal; lia|change (StreamFacts.rest st2) with (f_rest (s_fh st2)); rewrite Hr2; lia|]. eauto.
  - assert (HPm : P (concat more)). { apply (HP (concat (rd_lines r))). rewrite <- (reads_text _ _ _ Hra). exact HPt. }
    destruct (ready_item gz st0 pos text b r more Hrd Hra) as (st1 & E & Hi). rewrite Hstr in Hi. rewrite E.
    destruct (Hb (told (b && negb gz) (pos + List.length (concat (rd_before r)) + List.length (rd_pfx r))) r (concat more) acc st1 _ HPm Hi) as (st2 & E2 & H2). rewrite <- Ee in E2, H2. rewrite E2, He. cbn [omap fst snd]. destruct (H2 He) as (used' & Eu' & (Hk2 & Hp2 & He2 & Hr2 & Hs2) & Hpos2).
    assert (used' = used) as -> by (rewrite Eu' in Eu; apply app_inv_tail in Eu; exact Eu).
    pose proof (reads_as_uses _ _ _ Hra) as Hu. rewrite concat_lines, Eu, app_length, Em, app_length in Hu. rewrite Em in Hr2.
    assert (Hs3 : exists st3', read_record st2 b = read_record st3' b /\ ready_on gz st3' (pos + List.length (concat (rd_lines r)) + List.length used + List.length body0) after /\ f_strict (s_fh st3') = strict).
    { destruct (Z_le_gt_dec (e_due e) 0) as [L|L].
      - assert (List.length body0 = 0) as Hb0 by lia. destruct body0; [|discriminate]. exists (fresh st2). split; [apply (read_record_none _ _ _ He2 L)|]. split; [|exact Hs2].
        cbn [List.length]. rewrite Nat.add_0_r. repeat split; assumption.
      - assert (He' : s_eoc st2 = Some (Z.of_nat (List.length body0))) by (rewrite He2; f_equal; lia).
        exists (fresh (adv st2 (List.length body0))). split; [exact (read_record_skip _ _ _ _ He' Hr2)|]. split; [|exact Hs2].
        repeat split; [exact Hk2|exact Hp2|cbn; rewrite Hpos2; reflexivity|]. change (f_rest (s_fh (fresh ?s))) with (StreamFacts.rest s). exact (rest_adv_app _ _ _ Hr2). }
    destruct Hs3 as (st3' & E3' & Hrd3' & Hs3').
    assert (HPa : P after). { apply (HP (used ++ body0)). rewrite <- app_assoc, <- Em, <- Eu. exact HPm. }
    destruct (IH fuel st2 st3' (acc ++ e_out e) HPa E3' Hrd3' Hs3' ltac:(lia)) as [st' E']. exists st'. rewrite <- app_assoc in E'. exact E'.
Qed.
Lemma show_total shown visit fin : (forall off r rest, e_end (visit off r rest) = Ret tt -> exists used, rest = used ++ e_text (visit off r rest)) ->
  forall n pos text, List.length text <= n -> exists out o, show_run shown visit fin pos text out o.
Proof.
  intro Hv0. induction n as [n IH] using lt_wf_ind. intros pos text Hn.
  destruct (version_search (lines_of text) 0 ltac:(lia)) as [(before & l & t & El & Hb1 & Hb2 & Hl)|[[Hv H5]|(before & l & t & El & Hb1 & Hb2 & Hl)]];
    [|do 2 eexists; apply show_end; assumption|do 2 eexists; eapply show_junk; eassumption].
  apply version_line_as in Hl as (pfx & ws & tag & num & nl & Has).
  destruct (in_dec (list_eq_dec N.eq_dec) num known_numbers) as [Hnum|Hnum]; [|do 2 eexists; eapply show_version; eassumption].
  destruct (block_split t) as [Hs|(gs & stop & more & -> & Hg & Hs)]; [do 2 eexists; eapply show_hang; eassumption|].
  assert (Hra : reads_as (lines_of text) (mkreading before pfx ws tag num nl gs stop) more).
  { pose proof Has as (Ev & _). split; [|split; [exact Hb1|split; [exact Hb2|split; [|split; [exact Hnum|split; [exact Hg|exact Hs]]]]]].
    - rewrite El. unfold rd_lines, rd_vline. cbn [rd_before rd_pfx rd_ws rd_tag rd_num rd_nl rd_heads rd_stop]. rewrite <- Ev, <- app_assoc. cbn [app]. rewrite <- app_assoc. reflexivity.
    - unfold rd_vline. cbn [rd_pfx rd_ws rd_tag rd_num rd_nl]. rewrite <- Ev. exact Has. }
  set (r := mkreading before pfx ws tag num nl gs stop) in *. remember (visit (told shown (pos + List.length (concat (rd_before r)) + List.length (rd_pfx r))) r (concat more)) as e eqn:Ee.
  assert (D : e_end e = Ret tt \/ e_end e <> Ret tt) by (destruct (e_end e) as [[]| |]; [left; reflexivity|right; discriminate|right; discriminate]).
  destruct D as [De|De]; [|do 2 eexists; eapply show_fails; eassumption].
  destruct (Z_lt_ge_dec (Z.of_nat (List.length (e_text e))) (e_due e)) as [L|L]; [do 2 eexists; eapply show_short; eassumption|].
  set (k := Z.to_nat (Z.max 0 (e_due e))). pose proof (reads_as_uses _ _ _ Hra) as Hu. rewrite concat_lines in Hu.
  destruct (Hv0 (told shown (pos + List.length (concat (rd_before r)) + List.length (rd_pfx r))) r (concat more)) as [used Eu]; [rewrite <- Ee; exact De|]. rewrite <- Ee in Eu.
  assert (Hl : List.length (e_text e) <= List.length (concat more)) by (rewrite Eu, app_length; lia).
  destruct (IH (List.length (skipn k (e_text e))) ltac:(rewrite skipn_length; lia) (pos + List.length (concat (rd_lines r)) + List.length used + List.length (firstn k (e_text e))) (skipn k (e_text e)) (le_n _))
    as (out & o & Hrun).
  do 2 eexists. eapply (show_record shown visit fin pos text r more e used (firstn k (e_text e))); [exact Hra|exact Ee|exact De|exact Eu|symmetry; apply firstn_skipn| |exact Hrun].
  rewrite firstn_length. lia.
Qed.
Lemma any_listing (P : bytes -> Prop) gz strict body visit fin st pos text b : (forall x y, P (x ++ y) -> P y) -> lists P gz strict body visit fin ->
  (forall off r rest, e_end (visit off r rest) = Ret tt -> exists used, rest = used ++ e_text (visit off r rest)) ->
  P text -> ready_on gz st pos text -> f_strict (s_fh st) = strict -> forall acc out o,
  (show_run (b && negb gz) visit fin pos text out o <-> exists st', for_read_records None b body acc st = (o, acc ++ out, st')).
Proof.
  intros HP Hb Hv HPt Hrd Hs acc out o. assert (Hf : List.length text < file_fuel (s_fh st)).
  { pose proof (rest_fuel st) as H. destruct Hrd as (_ & _ & _ & _ & Hr). unfold StreamFacts.rest in H. rewrite Hr in H. exact H. }
  split.
  - intro H. exact (show_loop P gz strict body visit fin pos text out o b HP Hb H _ st st acc HPt eq_refl Hrd Hs Hf).
  - intros [st' E]. destruct (show_total (b && negb gz) visit fin Hv (List.length text) pos text (le_n _)) as (out1 & o1 & H).
    destruct (show_loop P gz strict body visit fin pos text out1 o1 b HP Hb H _ st st acc HPt eq_refl Hrd Hs Hf) as [st2 E2]. unfold for_read_records in E. rewrite E in E2.
    injection E2 as -> Eo _. apply app_inv_head in Eo. subst out1. exact H.
Qed.

Lemma rd_id r : rec_id (rd_record r) = header_of "WARC-Record-ID" (rd_wrec r []).
Proof. unfold rec_id, get_header. apply lookup_first. Qed.
Lemma rd_cl r : get_header (rd_record r) (cl_name (rd_record r)) = header_of "Content-Length" (rd_wrec r []).
Proof. unfold get_header. apply lookup_first. Qed.
Lemma entry_join name off r ct len : header_of "Content-Type" (rd_wrec r []) = ct ->
  join (B " ") [name; show_offset off; or_dash (rec_type (rd_record r)); or_dash (rec_url (rd_record r)); or_dash (rec_id (rd_record r)); or_dash ct; len] ++ [LF] = index_entry name off (rd_wrec r []) len.
Proof. intros <-. unfold index_entry. rewrite !dash_eq, rd_type, rd_url, rd_id. cbn [join]. rewrite <- !app_assoc. reflexivity. Qed.
Lemma index_lists gz strict name : lists (fun _ => True) gz strict (index_body name) (index_visit strict name) (fun _ _ => []).
Proof.
  split; [|intros off errs out st; exists st; cbn [index_body]; rewrite app_nil_r; reflexivity].
  intros off r rest out st p _ Hi. cbn zeta. unfold index_visit, index_body.
  pose proof (content_at gz strict r rest st p Hi) as C. change (ctype (rd_wrec r ?x)) with (header_of "Content-Type" (rd_wrec r [])) in C.
  unfold rec_content_type at 1. cbn [rd_record r_content]. change (mkrec _ _ _ None CF_stream true) with (rd_record r). rewrite rd_ct.
  destruct (header_of "Content-Type" (rd_wrec r [])) as [ct|] eqn:Ec.
  - unfold rec_content_length. cbn [rd_record r_content]. change (mkrec _ _ _ None CF_stream true) with (rd_record r). rewrite rd_cl.
    destruct (header_of "Content-Length" (rd_wrec r [])) as [v|] eqn:El.
    + destruct (py_int 10 v) as [n|].
      * cbn [e_end e_out e_text e_due omap]. rewrite (entry_join name off r (Some ct) (dec_Z n) Ec). exists st. split; [reflexivity|]. intros _. exists []. split; [reflexivity|].
        cbn [List.length]. rewrite Nat.add_0_r. exact Hi.
      * cbn [e_end e_out omap]. exists st. rewrite app_nil_r. split; [reflexivity|discriminate].
    + unfold PropsAnyFile.with_content. destruct (whole strict r rest) as [[[x more] d]|] eqn:Ew.
      * destruct C as (r' & st' & E & Hm & _ & Hi'). rewrite E. cbn [bind snd omap fst e_end e_out e_text e_due]. rewrite dec_Z_nat, (entry_join name off r (Some ct) _ Ec).
        exists st'. split; [reflexivity|]. intros _. exists x. split; [exact (whole_parts _ _ _ _ _ _ Ew)|exact Hi'].
      * destruct C as (r' & st' & E). rewrite E. cbn [bind omap e_end e_out]. exists st'. rewrite app_nil_r. split; [reflexivity|discriminate].
  - unfold PropsAnyFile.with_content. destruct (whole strict r rest) as [[[x more] d]|] eqn:Ew.
    + destruct C as (r' & st' & E & (_ & _ & _ & Hm) & _ & Hi'). rewrite E. cbn [omap fst]. unfold rec_content_length, rec_content. rewrite Hm.
      cbn [bind snd omap fst e_end e_out e_text e_due w_body rd_wrec]. rewrite dec_Z_nat, (entry_join name off r None _ Ec).
      exists st'. split; [reflexivity|]. intros _. exists x. split; [exact (whole_parts _ _ _ _ _ _ Ew)|exact Hi'].
    + destruct C as (r' & st' & E). rewrite E. cbn [bind omap e_end e_out]. exists st'. rewrite app_nil_r. split; [reflexivity|discriminate].
Qed.
Lemma index_uses strict name off r rest : e_end (index_visit strict name off r rest) = Ret tt -> exists used, rest = used ++ e_text (index_visit strict name off r rest).
Proof.
  assert (W : forall use, e_end (PropsAnyFile.with_content strict r rest use) = Ret tt -> exists used, rest = used ++ e_text (PropsAnyFile.with_content strict r rest use)).
  { intro use. unfold PropsAnyFile.with_content. destruct (whole strict r rest) as [[[x more] d]|] eqn:Ew; [|discriminate]. intros _. exists x. exact (whole_parts _ _ _ _ _ _ Ew). }
  unfold index_visit. destruct (header_of "Content-Type" _); [|apply W]. destruct (header_of "Content-Length" _) as [v|]; [|apply W]. destruct (py_int 10 v); [|discriminate]. intros _. exists []. reflexivity.
Qed.
Lemma dump_lists gz strict name : lists all_bytes gz strict (dump_item name) (dump_visit strict name) (dump_fin name).
Proof.
  split.
  - intros off r rest out st p Hby Hi. cbn zeta. unfold dump_visit, dump_item.
    pose proof (content_at gz strict r rest st p Hi) as C. change (ctype (rd_wrec r ?x)) with (header_of "Content-Type" (rd_wrec r [])) in C.
    set (out0 := print out (B "archive record at " ++ name ++ [58%N] ++ show_offset off)).
    assert (E0 : forall l, out0 ++ text_of l = out ++ text_of ((B "archive record at " ++ name ++ B ":" ++ show_offset off) :: l)).
    { intro l. unfold out0. rewrite print_first, <- app_assoc, <- text_of_app. reflexivity. }
    destruct (whole strict r rest) as [[[x more] d]|] eqn:Ew.
    + pose proof (whole_parts _ _ _ _ _ _ Ew) as Er. assert (Hx : all_bytes x) by (rewrite Er in Hby; apply Forall_app in Hby as [Hx _]; exact Hx).
      destruct C as (r' & st' & E & Hm & He & Hi'). destruct (header_of "Content-Type" (rd_wrec r [])) as [ct|].
      * rewrite (dump_text out0 _ _ _ _ _ _ E Hx eq_refl), He. change (r_headers (rd_record r)) with (rd_headers r). destruct (rd_errors r) as [|e0 es]; cbn [e_end e_out e_text e_due omap]; rewrite E0.
        -- exists st'. split; [reflexivity|]. intros _. exists x. split; [exact Er|exact Hi'].
        -- exists st'. split; [reflexivity|discriminate].
      * unfold rec_dump. rewrite E, headers_text. change (r_headers (rd_record r)) with (rd_headers r). rewrite print_more, E0. cbn [e_end e_out omap app]. exists st'. split; [reflexivity|discriminate].
    + destruct C as (r' & st' & E). unfold rec_dump. rewrite E, headers_text. change (r_headers (rd_record r)) with (rd_headers r). rewrite E0. cbn [e_end e_out omap]. exists st'. split; [reflexivity|discriminate].
  - intros off errs out st. exists st. cbn [dump_item dump_fin]. destruct errs as [|e errs].
    + rewrite (print_first out []), print_more. reflexivity.
    + unfold dump_fin. rewrite (print_fold (fun e => [9; 32]%N ++ show_perr e)), print_first, <- app_assoc, <- text_of_app. reflexivity.
Qed.
Lemma dump_uses strict name off r rest : e_end (dump_visit strict name off r rest) = Ret tt -> exists used, rest = used ++ e_text (dump_visit strict name off r rest).
Proof.
  unfold dump_visit. destruct (whole strict r rest) as [[[x more] d]|] eqn:Ew; [|discriminate]. destruct (header_of _ _); [|discriminate]. destruct (rd_errors r); [|discriminate].
  intros _. exists x. exact (whole_parts _ _ _ _ _ _ Ew).
Qed.
(** offsets are shown for uncompressed files only *)
Definition holds_as (gunzip : bytes -> bytes) (i : input) (shown : bool) (text : bytes) : Prop :=
  if shown then plain_file i text else gz_file gunzip i text.
Lemma any_listings gunzip (P : bytes -> Prop) (body : bytes -> bytes -> stream -> item -> outcome bool * bytes * stream) visit fin :
  (forall x y, P (x ++ y) -> P y) -> (forall gz name, lists P gz true (body name) (visit name) (fin name)) ->
  (forall name off r rest, e_end (visit name off r rest) = Ret tt -> exists used, rest = used ++ e_text (visit name off r rest)) ->
  forall (files : list (input * (bool * bytes))), Forall (fun f => holds_as gunzip (fst f) (fst (snd f)) (snd (snd f)) /\ P (snd (snd f))) files ->
  forall acc out o, files_run (fun f => show_run (fst (snd f)) (visit (in_name (fst f))) (fin (in_name (fst f))) 0 (snd (snd f))) files out o <->
    over_files gunzip (fun out name st => match for_read_records None true (body name) out st with (o, out', _) => (o, out') end) (map fst files) acc = (o, acc ++ out).
Proof.
  intros HP Hb Hu files Hf. induction Hf as [|[i [shown text]] files [Hi HPt] Hfs IH]; intros acc out o; cbn [map over_files fst snd] in *.
  - split; [intro H; inversion H; subst; rewrite app_nil_r; reflexivity|]. intro H. injection H as <- H. rewrite <- (app_nil_r acc) in H at 1. apply app_inv_head in H. subst out. constructor.
  - assert (O : exists gz st, open_input gunzip i = Ret st /\ ready_on gz st 0 text /\ f_strict (s_fh st) = true /\ negb gz = shown).
    { unfold holds_as in Hi. destruct shown; [exists false; rewrite (open_plain _ _ _ Hi)|exists true; rewrite (open_gz _ _ _ Hi)]; eexists; (split; [reflexivity|]); (split; [repeat split|split; reflexivity]). }
    destruct O as (gz & st & Eo & Hrd & Hs & Es). rewrite Eo.
    pose proof (any_listing P gz true (body (in_name i)) (visit (in_name i)) (fin (in_name i)) st 0 text true HP (Hb gz (in_name i)) (Hu (in_name i)) HPt Hrd Hs acc) as A.
    cbn [andb] in A. rewrite Es in A.
    destruct (show_total shown (visit (in_name i)) (fin (in_name i)) (Hu (in_name i)) (List.length text) 0 text (le_n _)) as (out1 & o1 & H1). pose proof H1 as H1'. apply A in H1' as [st1 E1]. rewrite E1.
    assert (U : forall out' o', show_run shown (visit (in_name i)) (fin (in_name i)) 0 text out' o' -> out' = out1 /\ o' = o1).
    { intros out' o' H. apply A in H as [st2 E2]. rewrite E1 in E2. injection E2 as -> E2 _. apply app_inv_head in E2. auto. }
    split.
    + intro H. inversion H as [|? ? ? ? Hr Hn|? ? out2 out3 ? Hr Hrest]; subst; cbn [fst snd] in Hr; apply U in Hr as [-> ?].
      * subst o. destruct o1 as [[]|e|]; [congruence|reflexivity|reflexivity].
      * subst o1. rewrite app_assoc. apply IH. exact Hrest.
    + destruct o1 as [[]|e|]; intro E.
      * destruct (over_files gunzip (fun out name st => match for_read_records None true (body name) out st with (o, out', _) => (o, out') end) (map fst files) (acc ++ out1)) as [o2 s2] eqn:E2.
        assert (T : exists oc od, files_run (fun f => show_run (fst (snd f)) (visit (in_name (fst f))) (fin (in_name (fst f))) 0 (snd (snd f))) files oc od).
        { clear -Hu. induction files as [|[j [sh t]] files IH]; [do 2 eexists; constructor|].
          destruct (show_total sh (visit (in_name j)) (fin (in_name j)) (Hu (in_name j)) (List.length t) 0 t (le_n _)) as (oa & ob & H). destruct IH as (oc & od & IH).
          destruct ob as [[]|e|]; [do 2 eexists; eapply files_more; [exact H|exact IH]|do 2 eexists; eapply files_stop; [exact H|discriminate]|do 2 eexists; eapply files_stop; [exact H|discriminate]]. }
        destruct T as (oc & od & T). pose proof T as T'. apply (IH (acc ++ out1)) in T'. rewrite E2 in T'. injection T' as -> ->. injection E as -> E.
        rewrite <- app_assoc in E. apply app_inv_head in E. subst out. eapply files_more; [exact H1|exact T].
      * injection E as <- E. apply app_inv_head in E. subst out1. apply files_stop; [exact H1|discriminate].
      * injection E as <- E. apply app_inv_head in E. subst out1. apply files_stop; [exact H1|discriminate].
Qed.

(** ** C76 *)
Theorem C76_warcindex_any_files : forall gunzip (files : list (input * (bool * bytes))) (out : bytes) (o : outcome unit),
  Forall (fun f => holds_as gunzip (fst f) (fst (snd f)) (snd (snd f))) files ->
  (files_run (fun f => show_run (fst (snd f)) (index_visit true (in_name (fst f))) (fun _ _ => []) 0 (snd (snd f))) files out o <->
   warcindex gunzip (map fst files) = (o, index_header ++ out)).
Proof.
  intros gunzip files out o Hf.
  apply (any_listings gunzip (fun _ => True) index_body (index_visit true) (fun _ _ _ => []) (fun _ _ _ => I) (fun gz name => index_lists gz true name) (fun name off r rest => index_uses true name off r rest) files).
  apply (Forall_impl _) with (2 := Hf). auto.
Qed.
Theorem C76_warcdump_any_files : forall gunzip (files : list (input * (bool * bytes))) (out : bytes) (o : outcome unit),
  Forall (fun f => holds_as gunzip (fst f) (fst (snd f)) (snd (snd f)) /\ all_bytes (snd (snd f))) files ->
  (files_run (fun f => show_run (fst (snd f)) (dump_visit true (in_name (fst f))) (dump_fin (in_name (fst f))) 0 (snd (snd f))) files out o <->
   warcdump gunzip (map fst files) = (o, out)).
Proof.
  intros gunzip files out o Hf.
  apply (any_listings gunzip all_bytes dump_item (dump_visit true) dump_fin) with (acc := []); [|intros; apply dump_lists|intros; eapply dump_uses; eassumption|exact Hf].
  intros x y H. apply Forall_app in H as [_ H]. exact H.
Qed.
Definition firsts (gz : bool) (body : bytes -> stream -> item -> outcome bool * bytes * stream) (visit : reading -> bytes -> bytes * outcome unit) : Prop :=
  (forall off r rest st p, inside_at gz true st p (due r) rest ->
   exists go st', body [] st (off, Some (rd_record r), []) = (omap (fun _ => go) (snd (visit r rest)), fst (visit r rest), st')) /\
  (forall off out st, exists go st', body out st (off, None, []) = (Ret go, out, st')) /\
  (forall off e es out st, exists st', body out st (off, None, e :: es) = (Raise ENameError, out, st')).
Lemma first_loop gz body visit text out o : firsts gz body visit -> first_run visit text out o -> forall st pos fuel, ready_on gz st pos text -> f_strict (s_fh st) = true ->
  exists st', read_loop (S fuel) (Some 1) false body [] st = (o, out, st').
Proof.
  intros (Hb & Hn0 & He0) H st pos fuel Hrd Hs. cbn [read_loop]. destruct H as [text Hv H5|text Hv H5|text before l t El Hb1 Hb2 Hl|text before l t pfx ws tag num nl El Hb1 Hb2 Has Hn
    |text before l t pfx ws tag num nl El Hb1 Hb2 Has Hn Hst|text r more Hra].
  - pose proof (answer_end gz _ _ _ false Hrd Hv ltac:(rewrite H5; cbn; lia)) as E. destruct (read_record st false) as [a st1]. cbn [fst] in E. subst a. rewrite H5. cbn [map].
    match goal with |- context [body [] st1 (?off, None, [])] => destruct (Hn0 off [] st1) as (go & st2 & ->) end. destruct go; cbn [fst snd]; eauto.
  - pose proof (answer_end gz _ _ _ false Hrd Hv (proj2 H5)) as E. destruct (read_record st false) as [a st1]. cbn [fst] in E. subst a.
    destruct (junk_lines (lines_of text)) as [|j js]; [cbn in H5; lia|]. cbn [map].
    match goal with |- context [body [] st1 (?off, None, ?e :: ?es)] => destruct (He0 off e es [] st1) as (st2 & ->) end. eauto.
  - pose proof (answer_junk gz _ _ _ false _ _ _ Hrd El Hb1 Hb2 Hl) as E. destruct (read_record st false) as [a st1]. cbn [fst] in E. subst a.
    destruct (map ErrIgnored (junk_lines (before ++ [l])) ++ [ErrTooMany]) as [|e es] eqn:E2; [apply app_eq_nil in E2 as [_ E2]; discriminate|].
    match goal with |- context [body [] st1 (?off, None, ?e :: ?es)] => destruct (He0 off e es [] st1) as (st2 & ->) end. eauto.
  - pose proof (answer_version gz _ _ _ false _ _ _ _ _ _ _ _ Hrd El Hb1 Hb2 Has Hn) as E. destruct (read_record st false) as [a st1]. cbn [fst] in E. subst a. eauto.
  - pose proof (answer_hang gz _ _ _ false _ _ _ _ _ _ _ _ Hrd El Hb1 Hb2 Has Hn Hst) as E. destruct (read_record st false) as [a st1]. cbn [fst] in E. subst a. eauto.
  - destruct (ready_item gz st pos text false r more Hrd Hra) as (st1 & E & Hi). rewrite Hs in Hi. rewrite E.
    match goal with |- context [body [] st1 (?off, Some _, [])] => destruct (Hb off r (concat more) st1 _ Hi) as (go & st2 & E2) end. cbn [andb] in E2 |- *. rewrite E2.
    destruct (snd (visit r (concat more))) as [[]|e|]; cbn [omap fst snd]; [|eauto|eauto]. destruct go; [|eauto]. destruct fuel; cbn [read_loop]; eauto.
Qed.
Lemma first_total visit text : exists out o, first_run visit text out o.
Proof.
  destruct (version_search (lines_of text) 0 ltac:(lia)) as [(before & l & t & El & Hb1 & Hb2 & Hl)|[[Hv H5]|(before & l & t & El & Hb1 & Hb2 & Hl)]].
  2: { destruct (junk_lines (lines_of text)) eqn:Ej; [do 2 eexists; apply first_end; assumption|do 2 eexists; apply first_junk_end; [assumption|rewrite Ej; cbn [List.length] in *; lia]]. }
  2: { do 2 eexists; eapply first_junk; eassumption. }
  apply version_line_as in Hl as (pfx & ws & tag & num & nl & Has).
  destruct (in_dec (list_eq_dec N.eq_dec) num known_numbers) as [Hnum|Hnum]; [|do 2 eexists; eapply first_version; eassumption].
  destruct (block_split t) as [Hs|(gs & stop & more & -> & Hg & Hs)]; [do 2 eexists; eapply first_hang; eassumption|].
  assert (Hra : reads_as (lines_of text) (mkreading before pfx ws tag num nl gs stop) more).
  { pose proof Has as (Ev & _). split; [|split; [exact Hb1|split; [exact Hb2|split; [|split; [exact Hnum|split; [exact Hg|exact Hs]]]]]].
    - rewrite El. unfold rd_lines, rd_vline. cbn [rd_before rd_pfx rd_ws rd_tag rd_num rd_nl rd_heads rd_stop]. rewrite <- Ev, <- app_assoc. cbn [app]. rewrite <- app_assoc. reflexivity.
    - unfold rd_vline. cbn [rd_pfx rd_ws rd_tag rd_num rd_nl]. rewrite <- Ev. exact Has. }
  do 2 eexists. exact (first_record _ _ _ _ Hra).
Qed.
Lemma first_exact gz body visit st pos text out o : firsts gz body visit -> ready_on gz st pos text -> f_strict (s_fh st) = true ->
  (first_run visit text out o <-> fst (for_read_records (Some 1) false body [] st) = (o, out)).
Proof.
  intros Hb Hrd Hs. unfold for_read_records, file_fuel.
  assert (U : forall out' o', first_run visit text out' o' -> fst (read_loop (S (S (List.length (f_data (s_fh st))))) (Some 1) false body [] st) = (o', out')).
  { intros out' o' H. destruct (first_loop gz body visit _ _ _ Hb H st pos (S (List.length (f_data (s_fh st)))) Hrd Hs) as [st' E]. rewrite E. reflexivity. }
  split; [apply U|]. intro H. destruct (first_total visit text) as (out1 & o1 & H1). pose proof (U _ _ H1) as E.
  assert (X : (o, out) = (o1, out1)) by congruence. injection X as -> ->. exact H1.
Qed.
Lemma extract_firsts gz : firsts gz dump_body extract_visit.
Proof.
  split; [|split; [intros off out st; exists false, st; reflexivity|intros off e es out st; exists st; reflexivity]].
  intros off r rest st p Hi. exists false. unfold dump_body, extract_visit. pose proof (content_at gz true r rest st p Hi) as C. destruct (whole true r rest) as [[[x more] d]|].
  - destruct C as (r' & st' & E & _). rewrite E. exists st'. reflexivity.
  - destruct C as (r' & st' & E). rewrite E. exists st'. reflexivity.
Qed.
Lemma copy_first gz r rest st p : inside_at gz true st p (due r) rest ->
  exists st', copy_loop (cf_fuel CF_stream st) CF_stream st [] = (snd (copied_out r rest), CF_stream, st', fst (copied_out r rest)).
Proof.
  intros [Hi _]. assert (Hr : List.length rest < file_fuel (s_fh st)). { pose proof (rest_fuel st) as H. destruct Hi as (_ & _ & _ & Hr & _). unfold StreamFacts.rest in H. rewrite Hr in H. exact H. }
  unfold copied_out, whole, cf_fuel. destruct (0 <=? due r)%Z eqn:Ed.
  - assert (Hd : (0 <= due r)%Z) by lia. assert (Hn : (due r <? 0)%Z = false) by lia. rewrite Hn. cbn [andb fst snd].
    destruct (copy_piece gz true (due r) (file_fuel (s_fh st)) st rest [] Hd Hi) as (st' & E & _); [rewrite firstn_length; lia|]. exists st'. exact E.
  - assert (Hn : (due r <? 0)%Z = true) by lia. rewrite Hn. assert (Hd : (due r < 0)%Z) by lia. cbn [negb]. rewrite orb_false_r. destruct (due r =? -1)%Z eqn:Em.
    + assert (Hm : (due r = -1)%Z) by lia. destruct (read_negative gz true st (due r) rest Hi Hd (or_introl Hm) (Some (Z.of_nat (Z.to_nat CHUNK_SIZE)))) as (st1 & E1 & Hi1); [lia|].
      unfold file_fuel. cbn [copy_loop cf_read]. rewrite E1. destruct rest as [|x t]; [exists st1; reflexivity|].
      change (bytes_eqb (x :: t) []) with false. cbn [negb andb fst snd].
      destruct (read_refused gz st1 (due r - Z.of_nat (List.length (x :: t))) [] Hi1 ltac:(cbn [List.length]; lia) (Some (Z.of_nat (Z.to_nat CHUNK_SIZE)))) as [st2 E2]; [lia|].
      cbn [copy_loop cf_read]. rewrite E2. exists st2. reflexivity.
    + destruct (read_refused gz st (due r) rest Hi ltac:(lia) (Some (Z.of_nat (Z.to_nat CHUNK_SIZE)))) as [st1 E1]; [lia|].
      unfold file_fuel. cbn [copy_loop cf_read]. rewrite E1. exists st1. reflexivity.
Qed.
Lemma payload_firsts client gz : firsts gz (payload_body client) (payload_visit client).
Proof.
  split; [|split; [intros off out st; exists true, st; reflexivity|intros off e es out st; exists st; reflexivity]].
  intros off r rest st p Hi. exists true. unfold payload_body, payload_visit. rewrite rd_type. change V_RESPONSE with (B "response"). fold (is_resp r).
  pose proof (content_at gz true r rest st p Hi) as C. change (ctype (rd_wrec r ?x)) with (header_of "Content-Type" (rd_wrec r [])) in C.
  change (r_cf (rd_record r)) with CF_stream. destruct (copy_first gz r rest st p Hi) as [st3 E3].
  destruct (is_resp r).
  - unfold rec_content_type at 1. cbn [rd_record r_content]. change (mkrec _ _ _ None CF_stream true) with (rd_record r). rewrite rd_ct.
    destruct (header_of "Content-Type" (rd_wrec r [])) as [ct|] eqn:Ec.
    + change APPLICATION_HTTP with (B "application/http"). destruct (startswith (B "application/http") ct).
      * unfold rec_content in C. cbn [rd_record r_content r_cf] in C. destruct (whole true r rest) as [[[x more] d]|].
        -- destruct C as (r' & st' & E & _). destruct (stream_read st None) as [[y|e|] s2]; [|discriminate|discriminate].
           assert (y = x) as -> by (inversion E; reflexivity). destruct (client x); cbn [if_returns omap fst snd app]; eauto.
        -- destruct C as (r' & st' & E). destruct (stream_read st None) as [[y|e|] s2]; [discriminate| |discriminate]. assert (e = EValueError) as -> by (inversion E; reflexivity). cbn [omap fst snd]. eauto.
      * change (r_cf (rd_record r)) with CF_stream. rewrite E3. destruct (snd (copied_out r rest)); cbn [omap]; eauto.
    + destruct (whole true r rest) as [[[x more] d]|].
      * destruct C as (r' & st' & E & _). rewrite E. cbn [omap fst snd]. eauto.
      * destruct C as (r' & st' & E). rewrite E. cbn [omap fst snd]. eauto.
  - rewrite E3. destruct (snd (copied_out r rest)); cbn [omap]; eauto.
Qed.
(** from any place of a file, also the middle of a record or behind the end *)
Theorem C76_warcextract_any_file : forall gunzip (i : input) (n : nat) (text : bytes) (out : bytes) (o : outcome unit), extract_holds gunzip i n text ->
  (first_run extract_visit text out o <-> warcextract gunzip i (Z.of_nat n) = (o, out)).
Proof.
  intros gunzip i n text out o Hi. destruct (extract_open gunzip i n _ Hi) as (st & -> & He & Hp & Hk & Hr & Hs).
  assert (Hrd : exists gz pos, ready_on gz st pos text).
  { exists (match s_kind st with SPlain => false | _ => true end), (f_pos (s_fh st)). destruct (s_kind st) eqn:Ek; [| |congruence]; repeat split; assumption. }
  destruct Hrd as (gz & pos & Hrd). apply (first_exact gz dump_body extract_visit st pos _ out o (extract_firsts gz) Hrd Hs).
Qed.
(** the file from byte [n] on decides whether it is taken for a compressed one, unless its name ends in .gz *)
Theorem C76_warcpayload_any_file : forall gunzip client (i : input) (n : nat) (text : bytes) (out : bytes) (o : outcome unit), file_holds gunzip (cut_file i n) text ->
  (first_run (payload_visit client) text out o <-> warcpayload gunzip client i (Z.of_nat n) = (o, out)).
Proof.
  intros gunzip client i n text out o H. unfold warcpayload, f_seek. assert (E : (Z.of_nat n <? 0)%Z = false) by lia. rewrite E, Nat2Z.id. cbn [f_data f_strict].
  set (f := mkfile (in_data i) n true). change (skipn n (in_data i)) with (f_rest f) in *.
  assert (X : exists gz st pos, open_stream gunzip AWarc (endswith (B ".gz") (in_name i)) GAuto f = Ret st /\ ready_on gz st pos text /\ f_strict (s_fh st) = true).
  { unfold open_stream. destruct (C25_gzip_detection f) as [Hs Hg]. destruct (is_gzip_file f) as [g f'] eqn:Ei. cbn [fst snd] in *. subst f'.
    destruct H as [(Hn & Hd & Ht)|(Hd & Ht)]; cbn [cut_file in_name in_data] in *; change (skipn n (in_data i)) with (f_rest f) in *.
    - destruct (endswith (B ".gz") (in_name i)) eqn:En; [apply endswith_iff in En as [t En]; destruct (Hn t En)|].
      destruct g; [destruct Hg as [Hg _]; destruct (Hg eq_refl) as [t Hx]; destruct (Hd t Hx)|].
      exists false. do 2 eexists. split; [reflexivity|]. split; [repeat split; exact Ht|reflexivity].
    - exists true. destruct (endswith (B ".gz") (in_name i)) eqn:En.
      + do 2 eexists. split; [reflexivity|]. split; [repeat split; exact Ht|reflexivity].
      + destruct Hd as [Hd|Hd]; [apply endswith_iff in Hd; congruence|]. destruct g; [|destruct Hg as [_ Hg]; specialize (Hg Hd); discriminate].
        do 2 eexists. split; [reflexivity|]. split; [repeat split; exact Ht|reflexivity]. }
  destruct X as (gz & st & pos & -> & Hrd & Hs). rewrite (first_exact gz (payload_body client) (payload_visit client) st pos _ out o (payload_firsts client gz) Hrd Hs).
  destruct (for_read_records (Some 1) false (payload_body client) [] st) as [[o' out'] st']. reflexivity.
Qed.

(** ** Concrete cases *)
Definition messy : bytes := B "junk" ++ CRLF ++ B "x WARC/1.0" ++ CRLF ++ B "WARC-Type: response" ++ CRLF ++ B "Content-Type: a/b" ++ CRLF ++ B "Content-Length: 3" ++ CRLF ++ CRLF ++ B "abc" ++
  CRLF ++ B "WARC/0.17" ++ [LF] ++ B "Content-Length: 4" ++ CRLF ++ CRLF ++ B "defg" ++ CRLF ++ B "rest".
Example C76_hypotheses_met :
  let i := mkin (B "a.warc") messy in let index := warcindex (fun x => x) [i] in
  fst index = Ret tt /\ snd index = index_header ++ B "a.warc 7 response - - a/b 3" ++ [LF] ++ B "a.warc 84 - - - - 4" ++ [LF] /\
  files_run (fun f => show_run (fst (snd f)) (index_visit true (in_name (fst f))) (fun _ _ => []) 0 (snd (snd f))) [(i, (true, messy))]
    (B "a.warc 7 response - - a/b 3" ++ [LF] ++ B "a.warc 84 - - - - 4" ++ [LF]) (Ret tt) /\
  fst (warcdump (fun x => x) [i]) = Raise ETypeError /\
  warcextract (fun x => x) i 8 = (Ret tt, B "abc") /\ warcextract (fun x => x) i 20 = (Ret tt, B "defg") /\
  warcextract (fun x => x) i 120 = (Raise ENameError, []) /\ warcextract (fun x => x) i 1000 = (Ret tt, []) /\
  warcpayload (fun x => x) (fun x => Ret x) i 8 = (Ret tt, B "abc") /\ warcpayload (fun x => x) (fun x => Ret x) i 20 = (Ret tt, B "defg").
Proof.
  cbn zeta. split; [vm_compute; reflexivity|]. split; [vm_compute; reflexivity|]. split; [|vm_compute; repeat split; reflexivity].
  apply (C76_warcindex_any_files (fun x => x)).
  - constructor; [|constructor]. cbn [fst snd holds_as]. split; [apply any_name; reflexivity|split; [intros t E; revert E; vm_compute; discriminate|reflexivity]].
  - vm_compute. reflexivity.
Qed.
