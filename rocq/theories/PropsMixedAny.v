(** C78: what iterating over any file gives with the ARC reader and with the reader for mixed files (C77 and C71 say what
    they make of one record). *)
From Verif Require Export PropsArcAny.
From Coq Require Import String List Lia ZArith.
Open Scope list_scope.

(** ** Specification: one record *)
(** what a reader finds in a text: no further record; a record, the length of its content if that is known, and the text behind
    its head; an exception; or a hang.  [n] counts the bytes of the text before the offset that is told. *)
Inductive found :=
| FNone (n : nat) (errs : list perr)
| FRec (n : nat) (r : record) (len : option Z) (more : bytes)
| FExn (e : exn)
| FHang.
(** C71 for one record *)
Inductive warc_finds (text : bytes) : found -> Prop :=
| warc_end : Forall (fun l => version_line l = false) (lines_of text) -> List.length (junk_lines (lines_of text)) <= 5 ->
    warc_finds text (FNone (List.length text) (map ErrIgnored (junk_lines (lines_of text))))
| warc_junk : forall before line more, lines_of text = before ++ line :: more -> Forall (fun l => version_line l = false) (before ++ [line]) ->
    List.length (junk_lines before) = 5 -> blank_text line = false ->
    warc_finds text (FNone (List.length (concat (before ++ [line]))) (map ErrIgnored (junk_lines (before ++ [line])) ++ [ErrTooMany]))
| warc_version : forall before vline block pfx ws tag num nl,
    lines_of text = before ++ vline :: block -> Forall (fun l => version_line l = false) before -> List.length (junk_lines before) <= 5 ->
    version_as vline pfx ws tag num nl -> ~ In num known_numbers -> warc_finds text (FExn ETypeError)
| warc_hang : forall before vline block pfx ws tag num nl,
    lines_of text = before ++ vline :: block -> Forall (fun l => version_line l = false) before -> List.length (junk_lines before) <= 5 ->
    version_as vline pfx ws tag num nl -> In num known_numbers -> stuck false block -> warc_finds text FHang
| warc_rec : forall r more, reads_as (lines_of text) r more ->
    warc_finds text (FRec (List.length (concat (rd_before r)) + List.length (rd_pfx r)) (rd_record r) (Some (declared_length (rd_headers r) 0)) (concat more)).
(** C77 for one record *)
Inductive arc_finds (names : list bytes) (text : bytes) : found -> list bytes -> Prop :=
| arc_finds_end names' : arc_reads names (lines_of text) (Ret None) names' ->
    arc_finds names text (FNone (List.length (concat (line_ends (lines_of text)))) []) names'
| arc_finds_rec r len more names' : arc_reads names (lines_of text) (Ret (Some (r, len, more))) names' ->
    arc_finds names text (FRec (List.length (concat (line_ends (lines_of text)))) r len (concat more)) names'
| arc_finds_exn e names' : arc_reads names (lines_of text) (Raise e) names' -> arc_finds names text (FExn e) names'.
(** the reader for mixed files goes by the first line that is not just CR and LF *)
Fixpoint first_line_of (ls : list bytes) : bytes :=
  match ls with l :: t => if forallb (fun c => N.eqb c CR || N.eqb c LF) l then first_line_of t else l | [] => [] end.
Definition warc_ahead (text : bytes) : bool := startswith (B "WARC") (first_line_of (lines_of text)).
Inductive finds (mixed : bool) (names : list bytes) (text : bytes) : found -> list bytes -> Prop :=
| finds_warc f : mixed && warc_ahead text = true -> warc_finds text f -> finds mixed names text f names
| finds_arc f names' : mixed && warc_ahead text = false -> arc_finds names text f names' -> finds mixed names text f names'.

(** ** Specification: a whole file *)
(** [run_of mixed shown pos names text items o]: iterating over the records of a text that stands at byte [pos], with the field
    names [names] in force, hands out [items] and ends with [o].  Content nobody reads is skipped - unless its length is not
    known: then the next record is looked for right behind the head. *)
Inductive run_of (mixed shown : bool) : nat -> list bytes -> bytes -> list item -> outcome unit -> Prop :=
| run_of_none : forall pos names text n errs names', finds mixed names text (FNone n errs) names' ->
    run_of mixed shown pos names text [(told shown (pos + n), None, errs)] (Ret tt)
| run_of_exn : forall pos names text e names', finds mixed names text (FExn e) names' -> run_of mixed shown pos names text [] (Raise e)
| run_of_hang : forall pos names text names', finds mixed names text FHang names' -> run_of mixed shown pos names text [] Diverge
| run_of_short : forall pos names text n r d more names', finds mixed names text (FRec n r (Some d) more) names' ->
    (Z.of_nat (List.length more) < d)%Z ->
    run_of mixed shown pos names text [(told shown (pos + n), Some r, [])] (Raise E_short)
| run_of_rec : forall pos names text n r d body after names' items o, finds mixed names text (FRec n r (Some d) (body ++ after)) names' ->
    Z.of_nat (List.length body) = Z.max 0 d ->
    run_of mixed shown (pos + List.length text - List.length after) names' after items o ->
    run_of mixed shown pos names text ((told shown (pos + n), Some r, []) :: items) o
| run_of_open : forall pos names text n r more names' items o, finds mixed names text (FRec n r None more) names' ->
    run_of mixed shown (pos + List.length text - List.length more) names' more items o ->
    run_of mixed shown pos names text ((told shown (pos + n), Some r, []) :: items) o.
(** a reader between two records *)
Definition ready_any (mixed gz : bool) (st : stream) (pos : nat) (text : bytes) (names : list bytes) : Prop :=
  s_kind st = (if gz then SGzipRecord else SPlain) /\ (exists a, s_parser st = (if mixed then PMixed a else PArc a) /\ a_headers a = names) /\
  s_eoc st = None /\ f_pos (s_fh st) = pos /\ f_rest (s_fh st) = text.

(** ** Lemmas *)
Lemma first_line_of_text ls : Forall (fun l => l <> []) ls -> first_text ls = first_line_of ls.
Proof.
  induction 1 as [|l t Hl Ht IH]; [reflexivity|]. cbn [first_text first_line_of]. unfold crlf_only. destruct l as [|c l]; [contradiction|].
  change (fun c0 => N.eqb c0 CR || N.eqb c0 LF) with is_crlf. destruct (forallb is_crlf (c :: l)); [exact IH|reflexivity].
Qed.
(** a reader answers what is found *)
Definition answers (gz shown : bool) (pos : nat) (text : bytes) (f : found) (x : outcome item * stream) : Prop :=
  match f with
  | FNone n errs => fst x = Ret (told shown (pos + n), None, errs)
  | FRec n r len more => fst x = Ret (told shown (pos + n), Some r, []) /\ s_eoc (snd x) = len /\ f_rest (s_fh (snd x)) = more /\
      f_pos (s_fh (snd x)) + List.length more = pos + List.length text /\ s_kind (snd x) = (if gz then SGzipRecord else SPlain)
  | FExn e => fst x = Raise e
  | FHang => fst x = Diverge
  end.
Lemma warc_finds_total text : exists f, warc_finds text f.
Proof.
  destruct (version_search (lines_of text) 0 ltac:(lia)) as [(before & l & t & El & Hb1 & Hb2 & Hl)|[[Hv H5]|(before & l & t & El & Hb1 & Hb2 & Hl)]];
    [|eexists; apply warc_end; assumption|eexists; eapply warc_junk; eassumption].
  apply version_line_as in Hl as (pfx & ws & tag & num & nl & Has).
  destruct (in_dec (list_eq_dec N.eq_dec) num known_numbers) as [Hnum|Hnum]; [|eexists; eapply warc_version; eassumption].
  destruct (block_split t) as [Hs|(gs & stop & more & -> & Hg & Hs)]; [eexists; eapply warc_hang; eassumption|].
  eexists. apply (warc_rec text (mkreading before pfx ws tag num nl gs stop) more).
  pose proof Has as (Ev & _). split; [|split; [exact Hb1|split; [exact Hb2|split; [|split; [exact Hnum|split; [exact Hg|exact Hs]]]]]].
  - rewrite El. unfold rd_lines, rd_vline. cbn [rd_before rd_pfx rd_ws rd_tag rd_num rd_nl rd_heads rd_stop]. rewrite <- Ev, <- app_assoc. cbn [app]. rewrite <- app_assoc. reflexivity.
  - unfold rd_vline. cbn [rd_pfx rd_ws rd_tag rd_num rd_nl]. rewrite <- Ev. exact Has.
Qed.
Lemma warc_answers gz st pos text b f : ready_on gz st pos text -> warc_finds text f -> answers gz (b && negb gz) pos text f (read_record st b).
Proof.
  intros Hrd Hf. destruct Hf as [Hv H5|before l t El Hb1 Hb2 Hl|before l t pfx ws tag num nl El Hb1 Hb2 Has Hn
    |before l t pfx ws tag num nl El Hb1 Hb2 Has Hn Hs|r more Hra]; cbn [answers].
  - exact (answer_end gz _ _ _ b Hrd Hv H5).
  - exact (answer_junk gz _ _ _ b _ _ _ Hrd El Hb1 Hb2 Hl).
  - exact (answer_version gz _ _ _ b _ _ _ _ _ _ _ _ Hrd El Hb1 Hb2 Has Hn).
  - exact (answer_hang gz _ _ _ b _ _ _ _ _ _ _ _ Hrd El Hb1 Hb2 Has Hn Hs).
  - destruct (C71_reading_gives_record gz st pos text b r more Hrd Hra) as (st1 & E & He & Hr & Hpos & Hk & _). rewrite (proj1 Hrd) in Hk. rewrite E. cbn [fst snd].
    rewrite Nat.add_assoc. split; [reflexivity|]. split; [exact He|]. split; [exact Hr|]. split; [|exact Hk]. rewrite Hpos.
    pose proof Hra as (El & _). pose proof (concat_lines text) as C. rewrite El, concat_app in C. rewrite <- C, app_length. lia.
Qed.

Lemma arc_finds_total names text : exists f names', arc_finds names text f names'.
Proof.
  destruct (C77_every_arc_text_has_one_reading names text) as (res & names' & H & _). destruct res as [[[[r len] more]|]|e|].
  - do 2 eexists. eapply arc_finds_rec. exact H.
  - do 2 eexists. eapply arc_finds_end. exact H.
  - do 2 eexists. eapply arc_finds_exn. exact H.
  - inversion H.
Qed.
Lemma finds_total mixed names text : exists f names', finds mixed names text f names'.
Proof.
  destruct (mixed && warc_ahead text) eqn:E.
  - destruct (warc_finds_total text) as [f H]. exists f, names. apply finds_warc; assumption.
  - destruct (arc_finds_total names text) as (f & names' & H). exists f, names'. apply finds_arc; assumption.
Qed.
Lemma arc_answers gz st pos text b names f names' : arc_ready gz st pos text names -> Forall plain_value names -> arc_finds names text f names' ->
  answers gz (b && negb gz) pos text f (read_record st b) /\ Forall plain_value names' /\
  exists a, s_parser (snd (read_record st b)) = PArc a /\ a_headers a = names'.
Proof.
  intros Hrd Hp Hf. pose proof (proj1 Hrd) as Hk0.
  destruct Hf as [names' H|r len more names' H|e names' H]; destruct (C77_arc_reader_follows gz st pos text names b _ names' Hrd Hp H) as (st' & a' & Hs & Ha & Hp' & Hk & _ & HH).
  - destruct HH as (E & _ & _). rewrite E. split; [reflexivity|]. split; [exact Hp'|]. exists a'. auto.
  - destruct HH as (E & He & Hr & Hpos). rewrite E. split; [cbn [answers fst snd]; rewrite Hk; auto|]. split; [exact Hp'|]. exists a'. auto.
  - rewrite HH. split; [reflexivity|]. split; [exact Hp'|]. exists a'. auto.
Qed.
Lemma any_answers mixed gz st pos text b names f names' : ready_any mixed gz st pos text names -> Forall plain_value names -> finds mixed names text f names' ->
  answers gz (b && negb gz) pos text f (read_record st b) /\ Forall plain_value names' /\
  exists a, s_parser (snd (read_record st b)) = (if mixed then PMixed a else PArc a) /\ a_headers a = names'.
Proof.
  intros (Hk & (a & Hp & Ha) & He & Hpos & Hr) Hpn Hf. destruct mixed.
  - assert (Es : set_parser st (PMixed a) = st) by (rewrite <- Hp; destruct st; reflexivity).
    pose proof (read_record_mixed st a b He) as E. rewrite Es in E. change (rest st) with (f_rest (s_fh st)) in E. rewrite Hr in E.
    rewrite first_line_of_text in E by (apply Forall_forall; intros l Hl; apply (lines_one_line text l Hl)). fold (warc_ahead text) in E.
    destruct Hf as [f Hw Hf|f names' Hw Hf]; cbn [andb] in Hw; rewrite Hw in E.
    + assert (Hrd : ready_on gz (set_parser st PWarc) pos text) by (repeat split; assumption).
      pose proof (warc_answers gz _ pos text b f Hrd Hf) as A. rewrite E. split; [|split; [exact Hpn|exists a; auto]].
      unfold with_p. destruct (read_record (set_parser st PWarc) b) as [o st']. destruct f; exact A.
    + assert (Hrd : arc_ready gz (set_parser st (PArc a)) pos text names) by (repeat split; try assumption; exists a; auto).
      destruct (arc_answers gz _ pos text b names f names' Hrd Hpn Hf) as (A & Hp' & a' & Hs & Ha'). rewrite E.
      destruct (read_record (set_parser st (PArc a)) b) as [o st']. cbn [snd] in Hs. rewrite Hs. cbn [arc_of]. split; [destruct f; exact A|]. split; [exact Hp'|]. exists a'. auto.
  - destruct Hf as [f Hw Hf|f names' Hw Hf]; [discriminate|]. apply arc_answers with (names := names); auto. repeat split; try assumption. exists a. auto.
Qed.
Lemma arc_reads_uses names ls r len more names' : arc_reads names ls (Ret (Some (r, len, more))) names' -> List.length (concat more) < List.length (concat ls).
Proof.
  assert (Hw : forall line : bytes, white line = false -> line <> []) by (intros line H ->; discriminate).
  intro H. inversion H as [| | |before line m vs E Hb Hl|before line m E|before line m e E|before line m vs E|before line m vs z E Hb Hl]; subst; rewrite concat_app; cbn [concat]; rewrite !app_length;
    pose proof (Hw _ Hl); (destruct line; [contradiction|]).
  - cbn [List.length]. lia.
  - cbn [List.length]. destruct m as [|x [|y m]]; cbn [concat]; rewrite ?app_length; cbn [List.length]; lia.
Qed.
Lemma finds_uses mixed names text n r len more names' : finds mixed names text (FRec n r len more) names' -> List.length more < List.length text.
Proof.
  intro H. inversion H as [f Hw Hf|f nn Hw Hf]; subst.
  - inversion Hf as [| | | |r0 m0 Hra]; subst. pose proof (reads_as_uses _ _ _ Hra) as U. rewrite concat_lines in U. exact U.
  - inversion Hf as [|r0 l0 m0 n0 Hra|]; subst. pose proof (arc_reads_uses _ _ _ _ _ _ Hra) as U. rewrite concat_lines in U. exact U.
Qed.
Lemma run_of_total mixed b : forall n pos names text, List.length text <= n -> exists items o, run_of mixed b pos names text items o.
Proof.
  induction n as [n IH] using lt_wf_ind. intros pos names text Hn. destruct (finds_total mixed names text) as (f & names' & H).
  destruct f as [k errs|k r [d|] more|e|].
  - do 2 eexists. eapply run_of_none. exact H.
  - destruct (Z_lt_ge_dec (Z.of_nat (List.length more)) d) as [L|L]; [do 2 eexists; eapply run_of_short; eassumption|].
    set (j := Z.to_nat (Z.max 0 d)). pose proof (finds_uses _ _ _ _ _ _ _ _ H) as Hu.
    destruct (IH (List.length (skipn j more)) ltac:(rewrite skipn_length; lia) (pos + List.length text - List.length (skipn j more)) names' (skipn j more) (le_n _)) as (items & o & Hrun).
    do 2 eexists. eapply (run_of_rec _ _ _ _ _ _ _ d (firstn j more) (skipn j more)); [rewrite firstn_skipn; exact H| |exact Hrun]. rewrite firstn_length. lia.
  - pose proof (finds_uses _ _ _ _ _ _ _ _ H) as Hu. destruct (IH (List.length more) ltac:(lia) (pos + List.length text - List.length more) names' more (le_n _)) as (items & o & Hrun).
    do 2 eexists. eapply run_of_open; eassumption.
  - do 2 eexists. eapply run_of_exn. exact H.
  - do 2 eexists. eapply run_of_hang. exact H.
Qed.
(** behind the head of a record whose length is known *)
Lemma behind_any (mixed gz : bool) st b pos names d body after : s_kind st = (if gz then SGzipRecord else SPlain) ->
  (exists a, s_parser st = (if mixed then PMixed a else PArc a) /\ a_headers a = names) -> s_eoc st = Some d -> f_pos (s_fh st) = pos ->
  f_rest (s_fh st) = body ++ after -> Z.of_nat (List.length body) = Z.max 0 d ->
  exists st0, read_record st b = read_record st0 b /\ ready_any mixed gz st0 (pos + List.length body) after names.
Proof.
  intros Hk Hp He Hpos Hr Hd. destruct (Z_le_gt_dec d 0) as [L|L].
  - assert (List.length body = 0) as Hb by lia. destruct body; [|discriminate]. exists (fresh st). split; [apply (read_record_none _ _ d); assumption|].
    cbn [List.length]. rewrite Nat.add_0_r. repeat split; assumption.
  - assert (He' : s_eoc st = Some (Z.of_nat (List.length body))) by (rewrite He; f_equal; lia).
    exists (fresh (adv st (List.length body))). split; [exact (read_record_skip _ _ _ _ He' Hr)|].
    repeat split; [exact Hk|exact Hp|cbn; rewrite Hpos; reflexivity|]. change (f_rest (s_fh (fresh ?s))) with (rest s). exact (rest_adv_app _ _ _ Hr).
Qed.
Lemma run_of_loop mixed gz b pos names text items o : run_of mixed (b && negb gz) pos names text items o -> Forall plain_value names -> forall fuel st st0 acc,
  read_record st b = read_record st0 b -> ready_any mixed gz st0 pos text names -> List.length text < fuel ->
  exists st', read_loop fuel None b collect acc st = (o, acc ++ items, st').
Proof.
  induction 1 as [pos names text n errs names' H|pos names text e names' H|pos names text names' H|pos names text n r d more names' H Hlt
    |pos names text n r d body after names' items o H Hd Hrun IH|pos names text n r more names' items o H Hrun IH];
    intros Hpn fuel st st0 acc Hst Hrd Hf; (destruct fuel as [|fuel]; [lia|]); cbn [read_loop]; rewrite Hst;
    destruct (any_answers mixed gz st0 _ _ b _ _ _ Hrd Hpn H) as (A & Hpn' & Hp'); destruct (read_record st0 b) as [x st1]; cbn [answers fst snd] in A, Hp'.
  - subst x. cbn [collect snd fst]. eauto.
  - subst x. rewrite app_nil_r. eauto.
  - subst x. rewrite app_nil_r. eauto.
  - destruct A as (-> & He & Hr & Hpos & Hk). cbn [collect snd fst]. pose proof (finds_uses _ _ _ _ _ _ _ _ H) as Hu. destruct fuel as [|fuel]; [lia|]. cbn [read_loop].
    destruct (read_record_short st1 b (Z.to_nat d)) as [st2 ->].
    + rewrite He. f_equal. lia.
    + change (rest st1) with (f_rest (s_fh st1)). rewrite Hr. lia.
    + eauto.
  - destruct A as (-> & He & Hr & Hpos & Hk). cbn [collect snd fst]. pose proof (finds_uses _ _ _ _ _ _ _ _ H) as Hu. rewrite app_length in Hu, Hpos.
    destruct (behind_any mixed gz st1 b _ names' d body after Hk Hp' He eq_refl Hr Hd) as (st2 & E2 & Hrd2).
    replace (f_pos (s_fh st1) + List.length body) with (pos + List.length text - List.length after) in Hrd2 by lia.
    destruct (IH Hpn' fuel st1 st2 (acc ++ [(told (b && negb gz) (pos + n), Some r, [])]) E2 Hrd2 ltac:(lia)) as [st' E']. exists st'. rewrite <- app_assoc in E'. exact E'.
  - destruct A as (-> & He & Hr & Hpos & Hk). cbn [collect snd fst]. pose proof (finds_uses _ _ _ _ _ _ _ _ H) as Hu.
    assert (Hrd2 : ready_any mixed gz st1 (pos + List.length text - List.length more) more names') by (repeat split; try assumption; lia).
    destruct (IH Hpn' fuel st1 st1 (acc ++ [(told (b && negb gz) (pos + n), Some r, [])]) eq_refl Hrd2 ltac:(lia)) as [st' E']. exists st'. rewrite <- app_assoc in E'. exact E'.
Qed.

(** ** C78 *)
(** what read_records() gives on any text with the ARC reader and with the reader for mixed files *)
Theorem C78_whole_file : forall (mixed gz : bool) st pos text names (offsets : bool) items o,
  ready_any mixed gz st pos text names -> Forall plain_value names ->
  (run_of mixed (offsets && negb gz) pos names text items o <-> exists st', list_records st None offsets = (o, items, st')).
Proof.
  intros mixed gz st p text names b items o Hst Hpn. unfold list_records, for_read_records.
  assert (Hfu : List.length text < file_fuel (s_fh st)). { pose proof (rest_fuel st) as H. destruct Hst as (_ & _ & _ & _ & Hr). unfold rest in H. rewrite Hr in H. exact H. }
  split.
  - intro H. destruct (run_of_loop mixed gz _ _ _ _ _ _ H Hpn (file_fuel (s_fh st)) st st [] eq_refl Hst Hfu) as [st' E]. exists st'. exact E.
  - intros [st' E]. destruct (run_of_total mixed (b && negb gz) (List.length text) p names text (le_n _)) as (items' & o' & H).
    destruct (run_of_loop mixed gz _ _ _ _ _ _ H Hpn (file_fuel (s_fh st)) st st [] eq_refl Hst Hfu) as [st'' E']. cbn [app] in E'. rewrite E in E'. injection E' as <- <- _. exact H.
Qed.
(** every text has exactly one run *)
Corollary C78_one_outcome : forall (mixed shown : bool) pos names text, Forall plain_value names ->
  exists items o, run_of mixed shown pos names text items o /\ forall items' o', run_of mixed shown pos names text items' o' -> items' = items /\ o' = o.
Proof.
  intros mixed b p names text Hpn. destruct (run_of_total mixed b (List.length text) p names text (le_n _)) as (items & o & H). exists items, o. split; [exact H|]. intros items' o' H'.
  set (a := mkarc [] names).
  set (st := mkstream SPlain (mkfile (repeat 0%N p ++ text) p true) None (if mixed then PMixed a else PArc a)).
  assert (Hst : ready_any mixed false st p text names).
  { repeat split; [exists a; auto|]. unfold f_rest. cbn. rewrite skipn_app, repeat_length, Nat.sub_diag, skipn_all2 by (rewrite repeat_length; lia). reflexivity. }
  rewrite <- (andb_true_r b) in H, H'. apply (C78_whole_file mixed false st p text names b items o Hst Hpn) in H as [s E].
  apply (C78_whole_file mixed false st p text names b items' o' Hst Hpn) in H' as [s' E']. rewrite E in E'. injection E' as -> -> _. auto.
Qed.

(** a reader just opened is between two records, with no field names in force *)
Lemma opened_ready_any mixed text strict : ready_any mixed false (new_stream SPlain (mkfile text 0 strict) (if mixed then PMixed arc_init else PArc arc_init)) 0 text [].
Proof. repeat split. exists arc_init. split; [destruct mixed; reflexivity|reflexivity]. Qed.
(** ** C78: a concrete case: a filedesc record, a record, a record without a length, a WARC record, and the end *)
Definition mixed_text : bytes :=
  arc_any_text ++ [LF] ++ B "http://h.org/ 20200102030405 x" ++ [LF] ++ B "http://h.org/ 20200102030405 0" ++ [LF] ++
  B "WARC/1.0" ++ CRLF ++ B "Content-Length: 1" ++ CRLF ++ CRLF ++ B "x" ++ [LF].
Example C78_hypotheses_met :
  exists items, run_of true true 0 [] mixed_text items (Ret tt) /\
    map (fun it : item => fst (fst it)) items = [Some 2; Some 81; Some 122; Some 153; Some 184; Some 217] /\
    map (fun it : item => option_map (fun r => r_class r) (snd (fst it))) items =
      [Some (RArcHeader (B "1 0 IA") (desc_line :: firstn 2 desc_more)); Some RArc; Some RArc; Some RArc; Some (RWarc (B "WARC/1.0")); None].
Proof.
  destruct (list_records (new_stream SPlain (mkfile mixed_text 0 true) (PMixed arc_init)) None true) as [[o items] st] eqn:E.
  assert (Eo : o = Ret tt) by (apply (f_equal (fun x => fst (fst x))) in E; vm_compute in E; symmetry; exact E). subst o.
  exists items. split; [apply (C78_whole_file true false _ 0 mixed_text [] true items (Ret tt) (opened_ready_any true mixed_text true) (Forall_nil _)); exists st; exact E|].
  apply (f_equal (fun x => snd (fst x))) in E. cbn [fst snd] in E. rewrite <- E. split; vm_compute; reflexivity.
Qed.
