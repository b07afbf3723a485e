(** C74: warc2warc and warcfilter on any file whatsoever. *)
From Verif Require Export PropsReading PropsFilter.
From Coq Require Import String List Lia ZArith.
Open Scope list_scope.

(** ** Specification *)
(** the length the record declares, and the record as a value *)
Definition due (r : reading) : Z := declared_length (rd_headers r) 0.
Definition rd_wrec (r : reading) (body : bytes) : wrec := mkw (rd_ws r ++ rd_tag r ++ rd_num r) (rd_headers r) body.
(** what a tool does with one record: what it writes, how it ends; and if it goes on, the text left in the file
    and how many bytes of it still belong to the record *)
Record effect : Type := mkeffect { e_out : bytes; e_end : outcome unit; e_text : bytes; e_due : Z }.
(** a whole file, for any text: [rest] in [visit r rest] is what follows the record's head *)
Inductive tool_run (visit : reading -> bytes -> effect) : bytes -> bytes -> outcome unit -> Prop :=
| tool_end : forall text,                                   (* nothing but blank lines *)
    Forall (fun l => version_line l = false) (lines_of text) -> junk_lines (lines_of text) = [] ->
    tool_run visit text [] (Ret tt)
| tool_junk_end : forall text,                              (* up to five lines of junk, and the file ends *)
    Forall (fun l => version_line l = false) (lines_of text) -> 1 <= List.length (junk_lines (lines_of text)) <= 5 ->
    tool_run visit text [] (Raise E_decode)
| tool_junk : forall text before line more,                 (* more than five *)
    lines_of text = before ++ line :: more -> Forall (fun l => version_line l = false) (before ++ [line]) ->
    List.length (junk_lines before) = 5 -> blank_text line = false ->
    tool_run visit text [] (Raise E_decode)
| tool_version : forall text before vline block pfx ws tag num nl,
    lines_of text = before ++ vline :: block -> Forall (fun l => version_line l = false) before -> List.length (junk_lines before) <= 5 ->
    version_as vline pfx ws tag num nl -> ~ In num known_numbers ->
    tool_run visit text [] (Raise ETypeError)
| tool_hang : forall text before vline block pfx ws tag num nl,
    lines_of text = before ++ vline :: block -> Forall (fun l => version_line l = false) before -> List.length (junk_lines before) <= 5 ->
    version_as vline pfx ws tag num nl -> In num known_numbers -> stuck false block ->
    tool_run visit text [] Diverge
| tool_fails : forall text r more,                          (* the tool itself gives up on the record *)
    reads_as (lines_of text) r more -> e_end (visit r (concat more)) <> Ret tt ->
    tool_run visit text (e_out (visit r (concat more))) (e_end (visit r (concat more)))
| tool_short : forall text r more,                          (* the file ends inside the payload *)
    reads_as (lines_of text) r more -> e_end (visit r (concat more)) = Ret tt ->
    (Z.of_nat (List.length (e_text (visit r (concat more)))) < e_due (visit r (concat more)))%Z ->
    tool_run visit text (e_out (visit r (concat more))) (Raise E_short)
| tool_record : forall text r more body after out o,        (* a record, and what follows *)
    reads_as (lines_of text) r more -> e_end (visit r (concat more)) = Ret tt ->
    e_text (visit r (concat more)) = body ++ after -> Z.of_nat (List.length body) = Z.max 0 (e_due (visit r (concat more))) ->
    tool_run visit after out o ->
    tool_run visit text (e_out (visit r (concat more)) ++ out) o.
(** several files, one after the other *)
Inductive files_run {A} (run : A -> bytes -> outcome unit -> Prop) : list A -> bytes -> outcome unit -> Prop :=
| files_none : files_run run [] [] (Ret tt)
| files_stop : forall f fs out o, run f out o -> o <> Ret tt -> files_run run (f :: fs) out o
| files_more : forall f fs out out2 o, run f out (Ret tt) -> files_run run fs out2 o -> files_run run (f :: fs) (out ++ out2) o.

(** the payload read in one call: its declared length, or as much as there is; for a negative length the rest of the
    file, except that files opened directly ([strict]) refuse other negative numbers than -1 *)
Definition whole (strict : bool) (r : reading) (rest : bytes) : option (bytes * bytes * Z) :=
  if (0 <=? due r)%Z then
    let p := firstn (Z.to_nat (due r)) rest in Some (p, skipn (Z.to_nat (due r)) rest, (due r - Z.of_nat (List.length p))%Z)
  else if (due r =? -1)%Z || negb strict then Some (rest, [], (due r - Z.of_nat (List.length rest))%Z)
  else None.
Definition nothing (r : reading) (rest : bytes) : effect := mkeffect [] (Ret tt) rest (due r).
Definition refused (gz : option gzipper) (text : bytes) : effect :=
  mkeffect (torn_output gz text) (Raise EValueError) [] 0%Z.
(** copying a record piece by piece *)
Definition copied (strict : bool) (gz : option gzipper) (r : reading) (rest : bytes) : effect :=
  let head := head_text (w_version (rd_wrec r [])) (rd_headers r) in
  match whole strict r rest with
  | Some (p, more, d) =>
      if (due r <? 0)%Z && strict && negb (bytes_eqb p []) then refused gz (head ++ p)     (* the next call is refused *)
      else mkeffect (in_output gz (canonical (rd_wrec r p))) (Ret tt) more d
  | None => refused gz head
  end.
(** reading its content first *)
Definition with_content (strict : bool) (r : reading) (rest : bytes) (use : wrec -> bytes * outcome unit) : effect :=
  match whole strict r rest with
  | Some (p, more, d) => mkeffect (fst (use (rd_wrec r p))) (snd (use (rd_wrec r p))) more d
  | None => mkeffect [] (Raise EValueError) [] 0%Z
  end.
Definition is_resp (r : reading) : bool := is_some_eq (header_of "WARC-Type" (rd_wrec r [])) (B "response").
Definition if_returns {A} (o : outcome A) (use : A -> bytes) : bytes * outcome unit :=
  match o with Ret a => (use a, Ret tt) | Raise e => ([], Raise e) | Diverge => ([], Diverge) end.
(** warc2warc, without and with -D *)
Definition copy_visit http_gz unzlib ungzip (strict : bool) (gz : option gzipper) (decode : bool) (r : reading) (rest : bytes) : effect :=
  if decode && is_resp r
  then with_content strict r rest (fun w => if_returns (decode_step http_gz unzlib ungzip (header_of "Content-Type" w) (w_body w)) (fun _ => in_output gz (canonical (from_memory w))))
  else copied strict gz r rest.
(** warcfilter *)
Definition if_chosen (b : bool) (strict : bool) (r : reading) (rest : bytes) : effect := if b then copied strict None r rest else nothing r rest.
Definition filter_visit http_gz (search : bytes -> bool) (strict : bool) (opt : fopt) (invert : bool) (r : reading) (rest : bytes) : effect :=
  let chosen w := selected search opt invert w in
  match opt with
  | FUrl | FType | FDate => if_chosen (chosen (rd_wrec r [])) strict r rest
  | FContentType =>
      match header_of "Content-Type" (rd_wrec r []) with
      | Some _ => if_chosen (chosen (rd_wrec r [])) strict r rest
      | None => with_content strict r rest (fun w => (if invert then canonical (from_memory w) else [], Ret tt))
      end
  | FAny => with_content strict r rest (fun w => (if chosen w then canonical (from_memory w) else [], Ret tt))
  | FHttpType =>
      if is_resp r then
        match header_of "Content-Type" (rd_wrec r []) with
        | None => with_content strict r rest (fun _ => ([], Raise EAttributeError))
        | Some ct => if startswith (B "application/http") ct
                     then with_content strict r rest (fun w => if_returns (http_mime http_gz (w_body w))
                            (fun mime => if xorb (found_in search mime) invert then canonical (from_memory w) else []))
                     else nothing r rest
        end
      else nothing r rest
  end.

(** ** Lemmas *)
(** a stream behind a record's head *)
Definition inside_with (p : parser) (gz strict : bool) (st : stream) (d : Z) (text : bytes) : Prop :=
  s_kind st = (if gz then SGzipRecord else SPlain) /\ s_parser st = p /\ s_eoc st = Some d /\ f_rest (s_fh st) = text /\ f_strict (s_fh st) = strict.
Definition inside : bool -> bool -> stream -> Z -> bytes -> Prop := inside_with PWarc.
Definition handles (gz strict : bool) (body : bytes -> stream -> record -> outcome unit * bytes * stream) (visit : reading -> bytes -> effect) : Prop :=
  forall r rest out st, inside gz strict st (due r) rest ->
  List.length (e_text (visit r rest)) <= List.length rest /\
  exists st', body out st (rd_record r) = (e_end (visit r rest), out ++ e_out (visit r rest), st') /\
    (e_end (visit r rest) = Ret tt -> inside gz strict st' (e_due (visit r rest)) (e_text (visit r rest))).

Lemma ready_strict_record gz st pos text b r more : ready_on gz st pos text -> reads_as (lines_of text) r more ->
  exists off st1, read_record st b = (Ret (off, Some (rd_record r), []), st1) /\ inside gz (f_strict (s_fh st)) st1 (due r) (concat more).
Proof.
  intros Hr Ha. destruct (C71_reading_gives_record gz st pos text b r more Hr Ha) as (st1 & E & He & Hre & _ & Hk & Hp & _ & Hs).
  do 2 eexists. split; [exact E|]. split; [rewrite Hk; exact (proj1 Hr)|]. split; [exact Hp|]. split; [exact He|]. split; [exact Hre|exact Hs].
Qed.
Lemma tool_loop gz strict body visit text out o : handles gz strict body visit -> tool_run visit text out o -> forall fuel st st0 pos acc,
  read_record st false = read_record st0 false -> ready_on gz st0 pos text -> f_strict (s_fh st0) = strict -> List.length text < fuel ->
  exists st', iter_loop fuel body acc st = (o, acc ++ out, st').
Proof.
  intros Hb H. induction H as [text Hv H5|text Hv H5|text before l t El Hb1 Hb2 Hl|text before l t pfx ws tag num nl El Hb1 Hb2 Has Hn
    |text before l t pfx ws tag num nl El Hb1 Hb2 Has Hn Hs|text r more Hra He|text r more Hra He Hlt|text r more body0 after out o Hra He Em Hd Hrun IH];
    intros fuel st st0 pos acc Hst Hrd Hstr Hf; (destruct fuel as [|fuel]; [lia|]); cbn [iter_loop]; rewrite Hst.
  - pose proof (answer_end gz _ _ _ false Hrd Hv ltac:(rewrite H5; cbn; lia)) as E. destruct (read_record st0 false) as [a st1]. cbn [fst] in E. subst a. rewrite H5, app_nil_r. cbn [map]. eauto.
  - pose proof (answer_end gz _ _ _ false Hrd Hv (proj2 H5)) as E. destruct (read_record st0 false) as [a st1]. cbn [fst] in E. subst a. rewrite app_nil_r.
    destruct (junk_lines (lines_of text)); [cbn in H5; lia|]. cbn [map]. eauto.
  - pose proof (answer_junk gz _ _ _ false _ _ _ Hrd El Hb1 Hb2 Hl) as E. destruct (read_record st0 false) as [a st1]. cbn [fst] in E. subst a. rewrite app_nil_r.
    destruct (map ErrIgnored (junk_lines (before ++ [l])) ++ [ErrTooMany]) eqn:E2; [apply app_eq_nil in E2 as [_ E2]; discriminate|]. eauto.
  - pose proof (answer_version gz _ _ _ false _ _ _ _ _ _ _ _ Hrd El Hb1 Hb2 Has Hn) as E. destruct (read_record st0 false) as [a st1]. cbn [fst] in E. subst a. rewrite app_nil_r. eauto.
  - pose proof (answer_hang gz _ _ _ false _ _ _ _ _ _ _ _ Hrd El Hb1 Hb2 Has Hn Hs) as E. destruct (read_record st0 false) as [a st1]. cbn [fst] in E. subst a. rewrite app_nil_r. eauto.
  - destruct (ready_strict_record gz st0 pos text false r more Hrd Hra) as (off & st1 & E & Hi). rewrite Hstr in Hi. rewrite E.
    destruct (Hb r (concat more) acc st1 Hi) as (_ & st2 & E2 & _). rewrite E2. destruct (e_end (visit r (concat more))) as [[]|e|]; [congruence| |]; eauto.
  - destruct (ready_strict_record gz st0 pos text false r more Hrd Hra) as (off & st1 & E & Hi). rewrite Hstr in Hi. rewrite E.
    destruct (Hb r (concat more) acc st1 Hi) as (Hle & st2 & E2 & H2). rewrite E2, He. destruct (H2 He) as (Hk2 & Hp2 & He2 & Hr2 & _).
    pose proof (reads_as_uses _ _ _ Hra) as Hu. rewrite concat_lines in Hu. destruct fuel as [|fuel]; [lia|]. cbn [iter_loop].
    destruct (read_record_short st2 false (Z.to_nat (e_due (visit r (concat more))))) as [st3 ->]; [rewrite He2; f_equal; lia|change (rest st2) with (f_rest (s_fh st2)); rewrite Hr2; lia|]. eauto.
  - destruct (ready_strict_record gz st0 pos text false r more Hrd Hra) as (off & st1 & E & Hi). rewrite Hstr in Hi. rewrite E.
    destruct (Hb r (concat more) acc st1 Hi) as (Hle & st2 & E2 & H2). rewrite E2, He. destruct (H2 He) as (Hk2 & Hp2 & He2 & Hr2 & Hs2). rewrite Em in Hr2.
    pose proof (reads_as_uses _ _ _ Hra) as Hu. rewrite concat_lines in Hu. rewrite Em, app_length in Hle.
    assert (B : exists st3, read_record st2 false = read_record st3 false /\ ready_on gz st3 (f_pos (s_fh st2) + List.length body0) after /\ f_strict (s_fh st3) = strict).
    { destruct (Z_le_gt_dec (e_due (visit r (concat more))) 0) as [L|L].
      - assert (List.length body0 = 0) as Hb0 by lia. destruct body0; [|discriminate]. exists (fresh st2). split; [apply (read_record_none _ _ _ He2 L)|]. split; [|exact Hs2].
        cbn [List.length]. rewrite Nat.add_0_r. repeat split; assumption.
      - assert (He' : s_eoc st2 = Some (Z.of_nat (List.length body0))) by (rewrite He2; f_equal; lia).
        exists (fresh (adv st2 (List.length body0))). split; [exact (read_record_skip _ _ _ _ He' Hr2)|]. split; [|exact Hs2].
        repeat split; [exact Hk2|exact Hp2|]. change (f_rest (s_fh (fresh ?s))) with (rest s). exact (rest_adv_app _ _ _ Hr2). }
    destruct B as (st3 & E3 & Hrd3 & Hs3).
    destruct (IH fuel st2 st3 _ (acc ++ e_out (visit r (concat more))) E3 Hrd3 Hs3 ltac:(lia)) as [st' E']. exists st'. rewrite <- app_assoc in E'. exact E'.
Qed.
Lemma tool_total visit : (forall r rest, List.length (e_text (visit r rest)) <= List.length rest) -> forall n text, List.length text <= n -> exists out o, tool_run visit text out o.
Proof.
  intro Hv0. induction n as [n IH] using lt_wf_ind. intros text Hn.
  destruct (version_search (lines_of text) 0 ltac:(lia)) as [(before & l & t & El & Hb1 & Hb2 & Hl)|[[Hv H5]|(before & l & t & El & Hb1 & Hb2 & Hl)]].
  2: { destruct (junk_lines (lines_of text)) eqn:Ej; [do 2 eexists; apply tool_end; assumption|do 2 eexists; apply tool_junk_end; [assumption|rewrite Ej; cbn [List.length] in *; lia]]. }
  2: { do 2 eexists; eapply tool_junk; eassumption. }
  apply version_line_as in Hl as (pfx & ws & tag & num & nl & Has).
  destruct (in_dec (list_eq_dec N.eq_dec) num known_numbers) as [Hnum|Hnum]; [|do 2 eexists; eapply tool_version; eassumption].
  destruct (block_split t) as [Hs|(gs & stop & more & -> & Hg & Hs)]; [do 2 eexists; eapply tool_hang; eassumption|].
  assert (Hra : reads_as (lines_of text) (mkreading before pfx ws tag num nl gs stop) more).
  { pose proof Has as (Ev & _). split; [|split; [exact Hb1|split; [exact Hb2|split; [|split; [exact Hnum|split; [exact Hg|exact Hs]]]]]].
    - rewrite El. unfold rd_lines, rd_vline. cbn [rd_before rd_pfx rd_ws rd_tag rd_num rd_nl rd_heads rd_stop]. rewrite <- Ev, <- app_assoc. cbn [app]. rewrite <- app_assoc. reflexivity.
    - unfold rd_vline. cbn [rd_pfx rd_ws rd_tag rd_num rd_nl]. rewrite <- Ev. exact Has. }
  set (r := mkreading before pfx ws tag num nl gs stop) in *. set (v := visit r (concat more)).
  assert (De : e_end v = Ret tt \/ e_end v <> Ret tt) by (destruct (e_end v) as [[]|e|]; [left; reflexivity|right; discriminate|right; discriminate]).
  destruct De as [De|De]; [|do 2 eexists; eapply tool_fails; eassumption].
  destruct (Z_lt_ge_dec (Z.of_nat (List.length (e_text v))) (e_due v)) as [L|L]; [do 2 eexists; eapply tool_short; eassumption|].
  set (k := Z.to_nat (Z.max 0 (e_due v))). pose proof (reads_as_uses _ _ _ Hra) as Hu. rewrite concat_lines in Hu. pose proof (Hv0 r (concat more)) as Hle. fold v in Hle.
  destruct (IH (List.length (skipn k (e_text v))) ltac:(rewrite skipn_length; lia) (skipn k (e_text v)) (le_n _)) as (out & o & Hrun).
  do 2 eexists. eapply tool_record; [exact Hra|exact De|symmetry; apply firstn_skipn| |exact Hrun]. fold v. rewrite firstn_length. lia.
Qed.
(** *** reading and copying a payload *)
Lemma read_piece {p0} gz strict st d text c : inside_with p0 gz strict st d text -> (0 <= d)%Z -> (0 <= c)%Z ->
  exists st', stream_read st (Some c) = (Ret (firstn (Z.to_nat (Z.min c d)) text), st') /\
    inside_with p0 gz strict st' (d - Z.of_nat (List.length (firstn (Z.to_nat (Z.min c d)) text))) (skipn (Z.to_nat (Z.min c d)) text).
Proof.
  intros (Hk & Hp & He & Hr & Hs) Hd Hc. unfold stream_read, bounded, raw_read, f_read. rewrite He.
  assert (E : (Z.min c d <? 0)%Z = false) by lia. rewrite E, Hr. eexists. split; [reflexivity|].
  split; [exact Hk|]. split; [exact Hp|]. split; [cbn [s_eoc count_down set_eoc set_fh]; rewrite He; reflexivity|].
  split; [|exact Hs]. cbn [s_fh count_down set_eoc set_fh]. unfold f_rest, f_advance in *. cbn [f_data f_pos]. rewrite <- skipn_skipn', Hr.
  rewrite firstn_length. destruct (Nat.le_ge_cases (Z.to_nat (Z.min c d)) (List.length text)); [rewrite Nat.min_l by lia; reflexivity|].
  rewrite Nat.min_r by lia. rewrite !skipn_all2 by lia. reflexivity.
Qed.
Lemma read_negative {p0} gz strict st d text : inside_with p0 gz strict st d text -> (d < 0)%Z ->
  ((d = -1)%Z \/ strict = false) -> forall c, match c with Some c => (0 <= c)%Z | None => True end ->
  exists st', stream_read st c = (Ret text, st') /\ inside_with p0 gz strict st' (d - Z.of_nat (List.length text)) [].
Proof.
  intros (Hk & Hp & He & Hr & Hs) Hd Hm c Hc. unfold stream_read, bounded. rewrite He.
  assert (E : (match c with Some c => Some (Z.min c d) | None => Some d end) = Some d) by (destruct c; [f_equal; lia|reflexivity]).
  destruct c as [c|]; rewrite ?E; unfold raw_read, f_read; (assert (E3 : (d <? 0)%Z = true) by lia); rewrite E3, Hs;
    (assert (E4 : (d =? -1)%Z || negb strict = true) by (destruct Hm as [-> | ->]; [reflexivity|apply orb_true_r])); rewrite E4; unfold f_read_all; rewrite Hr;
    (eexists; split; [reflexivity|]; split; [exact Hk|]; split; [exact Hp|]; split; [cbn [s_eoc count_down set_eoc set_fh]; rewrite He; reflexivity|]; split; [|exact Hs]);
    cbn [s_fh count_down set_eoc set_fh]; unfold f_rest, f_advance in *; cbn [f_data f_pos]; rewrite <- skipn_skipn', Hr; apply skipn_all2; lia.
Qed.
Lemma read_refused {p0} gz st d text : inside_with p0 gz true st d text -> (d < -1)%Z -> forall c, match c with Some c => (0 <= c)%Z | None => True end ->
  exists st', stream_read st c = (Raise EValueError, st').
Proof.
  intros (Hk & Hp & He & Hr & Hs) Hd c Hc. unfold stream_read, bounded. rewrite He.
  destruct c as [c|]; unfold raw_read, f_read; [assert (E : Z.min c d = d) by lia; rewrite E|];
    (assert (E3 : (d <? 0)%Z = true) by lia); (assert (E4 : (d =? -1)%Z = false) by lia); rewrite E3, Hs, E4; cbn [orb negb]; eauto.
Qed.
Lemma copy_piece {p0} gz strict d : forall fuel st text out, (0 <= d)%Z -> inside_with p0 gz strict st d text -> List.length (firstn (Z.to_nat d) text) < fuel ->
  exists st', copy_loop fuel CF_stream st out = (Ret tt, CF_stream, st', out ++ firstn (Z.to_nat d) text) /\
    inside_with p0 gz strict st' (d - Z.of_nat (List.length (firstn (Z.to_nat d) text))) (skipn (Z.to_nat d) text).
Proof.
  intros fuel. revert d. induction fuel as [|fuel IH]; intros d st text out Hd Hi Hf; [lia|]. cbn [copy_loop cf_read].
  destruct (read_piece gz strict st d text (Z.of_nat (Z.to_nat CHUNK_SIZE)) Hi Hd ltac:(lia)) as (st1 & E & Hi1). rewrite E.
  set (m := Z.to_nat (Z.min (Z.of_nat (Z.to_nat CHUNK_SIZE)) d)) in *.
  assert (Hm : m <= Z.to_nat d) by lia.
  destruct (firstn m text) as [|x buf] eqn:Eb.
  - assert (Z0 : firstn (Z.to_nat d) text = []).
    { destruct text as [|y t]; [apply firstn_nil|]. destruct m as [|m'] eqn:Em; [|discriminate]. assert (Z.to_nat d = 0) as -> by (unfold m in Em; unfold CHUNK_SIZE in Em; lia). reflexivity. }
    rewrite Z0, app_nil_r. exists st1. split; [reflexivity|]. cbn [List.length] in *.
    assert (Es : skipn m text = skipn (Z.to_nat d) text). { rewrite <- (app_nil_l (skipn m text)), <- Eb, firstn_skipn. rewrite <- (app_nil_l (skipn (Z.to_nat d) text)), <- Z0, firstn_skipn. reflexivity. }
    rewrite <- Es. exact Hi1.
  - assert (Ef : firstn (Z.to_nat d) text = (x :: buf) ++ firstn (Z.to_nat (d - Z.of_nat (List.length (x :: buf)))) (skipn m text)).
    { rewrite <- Eb. assert (Lm : List.length (firstn m text) = m \/ skipn m text = []) by (rewrite firstn_length; destruct (Nat.le_ge_cases m (List.length text)); [left; lia|right; apply skipn_all2; lia]).
      rewrite <- (firstn_skipn m text) at 1. rewrite firstn_app. rewrite firstn_firstn, Nat.min_r by lia. f_equal. destruct Lm as [Lm|Lm].
      - rewrite Lm. f_equal. lia.
      - rewrite Lm, !firstn_nil. reflexivity. }
    assert (Hl : List.length (x :: buf) <= Z.to_nat d) by (rewrite <- Eb, firstn_length; lia).
    destruct (IH (d - Z.of_nat (List.length (x :: buf)))%Z st1 (skipn m text) (out ++ x :: buf) ltac:(lia) Hi1) as (st2 & E2 & Hi2).
    { rewrite Ef, app_length in Hf. cbn [List.length] in *. lia. }
    exists st2. rewrite Ef. rewrite app_assoc. split; [exact E2|]. rewrite app_length.
    assert (Es : skipn (Z.to_nat (d - Z.of_nat (List.length (x :: buf)))) (skipn m text) = skipn (Z.to_nat d) text).
    { rewrite skipn_skipn'. assert (Lm : List.length (x :: buf) = m \/ List.length text <= m) by (rewrite <- Eb, firstn_length; lia). destruct Lm as [Lm|Lm]; [f_equal; lia|].
      rewrite !skipn_all2; [reflexivity|lia|lia]. }
    rewrite Es in Hi2. destruct Hi2 as (A1 & A2 & A3 & A4 & A5). split; [exact A1|]. split; [exact A2|]. split; [rewrite A3; f_equal; lia|]. split; assumption.
Qed.
Lemma whole_shorter strict r rest p more d : whole strict r rest = Some (p, more, d) -> List.length more <= List.length rest.
Proof.
  unfold whole. destruct (0 <=? due r)%Z; [intro H; injection H as _ <- _; rewrite skipn_length; lia|]. destruct (_ || _); [intro H; injection H as _ <- _; cbn; lia|discriminate].
Qed.
Lemma write_stream gz r st c : r_class r = RWarc (fst c) -> r_headers r = snd c -> r_cf r = CF_stream -> r_valid r = true ->
  match copy_loop (file_fuel (s_fh st)) CF_stream st (head_text (fst c) (snd c)) with (o, CF_stream, st', text) =>
    match o with
    | Ret _ => emit gz [] st r = (Ret tt, in_output gz (text ++ terminator), st')
    | Raise e => emit gz [] st r = (Raise e, torn_output gz text, st')
    | Diverge => emit gz [] st r = (Diverge, torn_output gz text, st')
    end | _ => True end.
Proof.
  intros H1 H2 H3 H4. unfold emit, write_to, rec_write, warc_write, has_cf. rewrite H3, H4, H1, H2. cbn [andb negb cf_fuel]. rewrite write_headers_all.
  assert (Eh : (fst c ++ CRLF ++ concat (map header_text (snd c))) ++ CRLF = head_text (fst c) (snd c)) by (unfold head_text; rewrite <- !app_assoc; reflexivity).
  rewrite Eh. destruct (copy_loop _ _ _ _) as [[[[u|e|] c'] st'] text]; destruct c'; try exact I; cbn [app]; try (destruct gz; reflexivity).
Qed.
Lemma emit_acc gz out st r o d st' : emit gz [] st r = (o, d, st') -> emit gz out st r = (o, out ++ d, st').
Proof. unfold emit. destruct (write_to gz CRLF r st) as [[[a b] c] e]. cbn [app]. intro H. injection H as <- <- <-. reflexivity. Qed.
Lemma canonical_head r p : canonical (rd_wrec r p) = (head_text (w_version (rd_wrec r [])) (rd_headers r) ++ p) ++ terminator.
Proof. reflexivity. Qed.
Lemma emit_copied {p0} gz strict ogz r rest out st : inside_with p0 gz strict st (due r) rest ->
  List.length (e_text (copied strict ogz r rest)) <= List.length rest /\
  exists st', emit ogz out st (rd_record r) = (e_end (copied strict ogz r rest), out ++ e_out (copied strict ogz r rest), st') /\
    (e_end (copied strict ogz r rest) = Ret tt -> inside_with p0 gz strict st' (e_due (copied strict ogz r rest)) (e_text (copied strict ogz r rest))).
Proof.
  intro Hi. split.
  { unfold copied. destruct (whole strict r rest) as [[[p more] d]|] eqn:E; [|cbn; lia]. apply whole_shorter in E. destruct (_ && _); [cbn; lia|exact E]. }
  pose proof (write_stream ogz (rd_record r) st (w_version (rd_wrec r []), rd_headers r) eq_refl eq_refl eq_refl eq_refl) as W. cbn [fst snd] in W.
  set (head := head_text (w_version (rd_wrec r [])) (rd_headers r)) in *. unfold copied. fold head.
  assert (Hr : List.length rest < file_fuel (s_fh st)). { pose proof (rest_fuel st) as H. destruct Hi as (_ & _ & _ & Hr & _). unfold StreamFacts.rest in H. rewrite Hr in H. exact H. }
  unfold whole. destruct (0 <=? due r)%Z eqn:Ed.
  - assert (Hd : (0 <= due r)%Z) by lia. assert (Hn : (due r <? 0)%Z = false) by lia. rewrite Hn. cbn [andb e_end e_out e_text e_due].
    destruct (copy_piece gz strict (due r) (file_fuel (s_fh st)) st rest head Hd Hi) as (st' & E & Hi').
    { rewrite firstn_length. lia. }
    rewrite E in W. exists st'. split; [|intros _; exact Hi']. rewrite canonical_head. fold head. apply emit_acc. exact W.
  - assert (Hn : (due r <? 0)%Z = true) by lia. rewrite Hn. cbn [andb]. assert (Hd : (due r < 0)%Z) by lia.
    destruct ((due r =? -1)%Z || negb strict) eqn:Em.
    + assert (Hm : (due r = -1)%Z \/ strict = false) by (apply orb_true_iff in Em as [Em|Em]; [left; lia|right; destruct strict; [discriminate|reflexivity]]).
      destruct (read_negative gz strict st (due r) rest Hi Hd Hm (Some (Z.of_nat (Z.to_nat CHUNK_SIZE)))) as (st1 & E1 & Hi1); [lia|].
      unfold file_fuel in W. cbn [copy_loop cf_read] in W. rewrite E1 in W. destruct rest as [|x t].
      * cbn [bytes_eqb negb]. rewrite andb_false_r. cbn [e_end e_out e_text e_due]. exists st1. split; [|intros _; exact Hi1]. apply emit_acc. rewrite canonical_head. fold head. rewrite app_nil_r. exact W.
      * change (bytes_eqb (x :: t) []) with false. cbn [negb]. rewrite andb_true_r. destruct strict.
        -- destruct (read_refused gz st1 (due r - Z.of_nat (List.length (x :: t))) [] Hi1 ltac:(cbn [List.length]; lia) (Some (Z.of_nat (Z.to_nat CHUNK_SIZE)))) as [st2 E2]; [lia|].
           cbn [copy_loop cf_read] in W. rewrite E2 in W. cbn [refused e_end e_out]. exists st2. split; [apply emit_acc; exact W|discriminate].
        -- destruct (read_negative gz false st1 (due r - Z.of_nat (List.length (x :: t))) [] Hi1 ltac:(lia) (or_intror eq_refl) (Some (Z.of_nat (Z.to_nat CHUNK_SIZE)))) as (st2 & E2 & Hi2); [lia|].
           cbn [copy_loop cf_read] in W. rewrite E2 in W. cbn [e_end e_out e_text e_due]. exists st2. split; [apply emit_acc; rewrite canonical_head; fold head; exact W|]. intros _.
           destruct Hi2 as (A1 & A2 & A3 & A4 & A5). split; [exact A1|]. split; [exact A2|]. split; [rewrite A3; f_equal; cbn [List.length]; lia|]. split; assumption.
    + apply orb_false_iff in Em as [Em1 Em2]. assert (strict = true) as -> by (destruct strict; [reflexivity|discriminate]).
      destruct (read_refused gz st (due r) rest Hi ltac:(lia) (Some (Z.of_nat (Z.to_nat CHUNK_SIZE)))) as [st1 E1]; [lia|].
      unfold file_fuel in W. cbn [copy_loop cf_read] in W. rewrite E1 in W. exists st1. cbn [refused e_end e_out]. split; [apply emit_acc; exact W|discriminate].
Qed.
(** reading the content *)
Definition in_memory (r' : record) (w : wrec) : Prop :=
  r_class r' = RWarc (w_version w) /\ r_headers r' = w_headers w /\ r_cf r' = CF_none /\ r_content r' = Some (ctype w, Some (w_body w)).
Lemma content_whole {p0} gz strict r rest st : inside_with p0 gz strict st (due r) rest ->
  match whole strict r rest with
  | Some (p, more, d) => exists r' st', rec_content (rd_record r) st = (Ret (ctype (rd_wrec r p), Some p), r', st') /\ in_memory r' (rd_wrec r p) /\ inside_with p0 gz strict st' d more
  | None => exists r' st', rec_content (rd_record r) st = (Raise EValueError, r', st')
  end.
Proof.
  intro Hi. assert (Ec : get_header (rd_record r) (ct_name (rd_record r)) = ctype (rd_wrec r [])) by (unfold get_header; rewrite lookup_first; reflexivity).
  unfold rec_content. cbn [rd_record r_content r_cf]. change (mkrec _ _ _ None CF_stream true) with (rd_record r). rewrite Ec.
  unfold whole. destruct (0 <=? due r)%Z eqn:Ed.
  - destruct (read_piece gz strict st (due r) rest (due r) Hi ltac:(lia) ltac:(lia)) as (st' & E & Hi').
    assert (E0 : stream_read st None = stream_read st (Some (due r))). { unfold stream_read, bounded. destruct Hi as (_ & _ & He & _). rewrite He, Z.min_id. reflexivity. }
    rewrite E0, E, Z.min_id in *. do 2 eexists. split; [reflexivity|]. split; [repeat split|]. exact Hi'.
  - assert (Hd : (due r < 0)%Z) by lia. destruct ((due r =? -1)%Z || negb strict) eqn:Em.
    + assert (Hm : (due r = -1)%Z \/ strict = false) by (apply orb_true_iff in Em as [Em|Em]; [left; lia|right; destruct strict; [discriminate|reflexivity]]).
      destruct (read_negative gz strict st (due r) rest Hi Hd Hm None I) as (st1 & E1 & Hi1). rewrite E1. do 2 eexists. split; [reflexivity|]. split; [repeat split|]. exact Hi1.
    + apply orb_false_iff in Em as [Em1 Em2]. assert (strict = true) as -> by (destruct strict; [reflexivity|discriminate]).
      destruct (read_refused gz st (due r) rest Hi ltac:(lia) None I) as [st1 E1]. rewrite E1. eauto.
Qed.
Lemma with_content_shorter strict r rest use : List.length (e_text (with_content strict r rest use)) <= List.length rest.
Proof. unfold with_content. destruct (whole strict r rest) as [[[p more] d]|] eqn:E; [|cbn; lia]. exact (whole_shorter _ _ _ _ _ _ E). Qed.
Lemma rd_type r : rec_type (rd_record r) = header_of "WARC-Type" (rd_wrec r []).
Proof. unfold rec_type, get_header. apply lookup_first. Qed.
Lemma rd_url r : rec_url (rd_record r) = header_of "WARC-Target-URI" (rd_wrec r []).
Proof. unfold rec_url, get_header. apply lookup_first. Qed.
Lemma rd_date r : rec_date (rd_record r) = header_of "WARC-Date" (rd_wrec r []).
Proof. unfold rec_date, get_header. apply lookup_first. Qed.
Lemma rd_ct r : get_header (rd_record r) (ct_name (rd_record r)) = header_of "Content-Type" (rd_wrec r []).
Proof. unfold get_header. apply lookup_first. Qed.
Lemma emit_mem gz out st r' w : in_memory r' w -> emit gz out st r' = (Ret tt, out ++ in_output gz (canonical (from_memory w)), st).
Proof. intros (H1 & H2 & H3 & H4). apply (emit_memory gz out st r' _ _ _ _ H1 H2 H3 H4). Qed.
Lemma w2w_handles hg uz ug gz strict ogz decode : handles gz strict (w2w_process hg uz ug ogz decode) (copy_visit hg uz ug strict ogz decode).
Proof.
  intros r rest out st Hi. unfold copy_visit, w2w_process. rewrite rd_type. fold (is_resp r). change V_RESPONSE with (B "response"). fold (is_resp r).
  destruct (decode && is_resp r); [|apply emit_copied; exact Hi]. split; [apply with_content_shorter|].
  pose proof (content_whole gz strict r rest st Hi) as C. unfold with_content. destruct (whole strict r rest) as [[[p more] d]|].
  - destruct C as (r' & st' & E & Hm & Hi'). rewrite E. change (header_of "Content-Type" (rd_wrec r p)) with (ctype (rd_wrec r p)). cbn [w_body rd_wrec].
    destruct (decode_step hg uz ug (ctype (rd_wrec r p)) p) as [u|e|]; cbn [if_returns fst snd e_end e_out e_text e_due].
    + rewrite (emit_mem _ _ _ _ _ Hm). exists st'. split; [reflexivity|]. intros _. exact Hi'.
    + exists st'. rewrite app_nil_r. split; [reflexivity|discriminate].
    + exists st'. rewrite app_nil_r. split; [reflexivity|discriminate].
  - destruct C as (r' & st' & E). rewrite E. exists st'. cbn [e_end e_out]. rewrite app_nil_r. split; [reflexivity|discriminate].
Qed.
Lemma emit_if_chosen gz strict b r rest out st : inside gz strict st (due r) rest ->
  List.length (e_text (if_chosen b strict r rest)) <= List.length rest /\
  exists st', emit_if b out st (rd_record r) = (e_end (if_chosen b strict r rest), out ++ e_out (if_chosen b strict r rest), st') /\
    (e_end (if_chosen b strict r rest) = Ret tt -> inside gz strict st' (e_due (if_chosen b strict r rest)) (e_text (if_chosen b strict r rest))).
Proof.
  intro Hi. unfold if_chosen, emit_if. destruct b; [apply emit_copied; exact Hi|]. cbn [nothing e_text e_end e_out e_due]. split; [lia|]. exists st. rewrite app_nil_r. split; [reflexivity|]. intros _. exact Hi.
Qed.
Lemma emit_if_mem b out st r' w : in_memory r' w -> emit_if b out st r' = (Ret tt, out ++ (if b then canonical (from_memory w) else []), st).
Proof. intro H. unfold emit_if. destruct b; [apply (emit_mem None); exact H|rewrite app_nil_r; reflexivity]. Qed.
Lemma filter_handles hg search gz strict opt invert : handles gz strict (filter_record hg search opt invert) (filter_visit hg search strict opt invert).
Proof.
  intros r rest out st Hi. unfold filter_visit, filter_record. pose proof (content_whole gz strict r rest st Hi) as C.
  destruct opt; unfold selected, matches.
  - rewrite rd_url, opt_search_found. apply emit_if_chosen. exact Hi.
  - rewrite rd_type, opt_search_found. apply emit_if_chosen. exact Hi.
  - unfold rec_content_type at 1. cbn [rd_record r_content]. change (mkrec _ _ _ None CF_stream true) with (rd_record r). rewrite rd_ct.
    destruct (header_of "Content-Type" (rd_wrec r [])) as [v|] eqn:Ec.
    + destruct v as [|c v]; cbn [truthy].
      * change (found_in search (Some [])) with false. rewrite xorb_false_l. apply emit_if_chosen. exact Hi.
      * unfold rec_content_type. cbn [rd_record r_content]. change (mkrec _ _ _ None CF_stream true) with (rd_record r). rewrite rd_ct, Ec, opt_search_found. apply emit_if_chosen. exact Hi.
    + split; [apply with_content_shorter|]. unfold with_content. destruct (whole strict r rest) as [[[p more] d]|].
      * destruct C as (r' & st' & E & Hm & Hi'). rewrite E. change (ctype (rd_wrec r p)) with (header_of "Content-Type" (rd_wrec r [])). rewrite Ec. cbn [omap fst truthy e_end e_out e_text e_due snd].
        rewrite (emit_if_mem invert out st' r' _ Hm). exists st'. split; [reflexivity|]. intros _. exact Hi'.
      * destruct C as (r' & st' & E). rewrite E. cbn [omap]. exists st'. cbn [e_end e_out]. rewrite app_nil_r. split; [reflexivity|discriminate].
  - rewrite rd_type. change V_RESPONSE with (B "response"). fold (is_resp r). destruct (is_resp r).
    2: { cbn [nothing e_text e_end e_out e_due]. split; [lia|]. exists st. rewrite app_nil_r. split; [reflexivity|]. intros _. exact Hi. }
    unfold rec_content_type at 1. cbn [rd_record r_content]. change (mkrec _ _ _ None CF_stream true) with (rd_record r). rewrite rd_ct.
    destruct (header_of "Content-Type" (rd_wrec r [])) as [v|] eqn:Ec.
    + change APPLICATION_HTTP with (B "application/http"). destruct (startswith (B "application/http") v).
      2: { cbn [nothing e_text e_end e_out e_due]. split; [lia|]. exists st. rewrite app_nil_r. split; [reflexivity|]. intros _. exact Hi. }
      split; [apply with_content_shorter|]. unfold with_content. destruct (whole strict r rest) as [[[p more] d]|].
      * destruct C as (r' & st' & E & Hm & Hi'). rewrite E. cbn [w_body rd_wrec]. destruct (http_mime hg p) as [mime|e|]; cbn [if_returns fst snd e_end e_out e_text e_due].
        -- rewrite (emit_if_mem _ out st' r' _ Hm), opt_search_found. exists st'. split; [reflexivity|]. intros _. exact Hi'.
        -- exists st'. rewrite app_nil_r. split; [reflexivity|discriminate].
        -- exists st'. rewrite app_nil_r. split; [reflexivity|discriminate].
      * destruct C as (r' & st' & E). rewrite E. exists st'. cbn [e_end e_out]. rewrite app_nil_r. split; [reflexivity|discriminate].
    + split; [apply with_content_shorter|]. unfold with_content. destruct (whole strict r rest) as [[[p more] d]|].
      * destruct C as (r' & st' & E & Hm & Hi'). rewrite E. change (ctype (rd_wrec r p)) with (header_of "Content-Type" (rd_wrec r [])). rewrite Ec. cbn [omap fst e_end e_out e_text e_due snd].
        exists st'. rewrite app_nil_r. split; [reflexivity|discriminate].
      * destruct C as (r' & st' & E). rewrite E. cbn [omap]. exists st'. cbn [e_end e_out]. rewrite app_nil_r. split; [reflexivity|discriminate].
  - rewrite rd_date, opt_search_found. apply emit_if_chosen. exact Hi.
  - split; [apply with_content_shorter|]. unfold with_content. destruct (whole strict r rest) as [[[p more] d]|].
    + destruct C as (r' & st' & E & Hm & Hi'). rewrite E. cbn [e_end e_out e_text e_due fst snd]. rewrite (emit_if_mem _ out st' r' _ Hm). exists st'. split; [reflexivity|]. intros _. exact Hi'.
    + destruct C as (r' & st' & E). rewrite E. exists st'. cbn [e_end e_out]. rewrite app_nil_r. split; [reflexivity|discriminate].
Qed.
Lemma any_stream gz strict body visit st pos text : handles gz strict body visit -> (forall r rest, List.length (e_text (visit r rest)) <= List.length rest) ->
  ready_on gz st pos text -> f_strict (s_fh st) = strict -> forall acc out o,
  (tool_run visit text out o <-> exists st', for_records body acc st = (o, acc ++ out, st')).
Proof.
  intros Hb Hl Hrd Hs acc out o. assert (Hf : List.length text < file_fuel (s_fh st)).
  { pose proof (rest_fuel st) as H. destruct Hrd as (_ & _ & _ & _ & Hr). unfold StreamFacts.rest in H. rewrite Hr in H. exact H. }
  split.
  - intro H. exact (tool_loop gz strict body visit text out o Hb H _ st st pos acc eq_refl Hrd Hs Hf).
  - intros [st' E]. destruct (tool_total visit Hl (List.length text) text (le_n _)) as (out1 & o1 & H).
    destruct (tool_loop gz strict body visit text out1 o1 Hb H _ st st pos acc eq_refl Hrd Hs Hf) as [st2 E2]. unfold for_records in E. rewrite E in E2.
    injection E2 as -> Eo _. apply app_inv_head in Eo. subst out1. exact H.
Qed.
Lemma copied_shorter strict gz r rest : List.length (e_text (copied strict gz r rest)) <= List.length rest.
Proof. unfold copied. destruct (whole strict r rest) as [[[p more] d]|] eqn:E; [|cbn; lia]. apply whole_shorter in E. destruct (_ && _); [cbn; lia|exact E]. Qed.
Lemma copy_shorter hg uz ug strict gz decode r rest : List.length (e_text (copy_visit hg uz ug strict gz decode r rest)) <= List.length rest.
Proof. unfold copy_visit. destruct (decode && is_resp r); [apply with_content_shorter|apply copied_shorter]. Qed.
Lemma chosen_shorter b strict r rest : List.length (e_text (if_chosen b strict r rest)) <= List.length rest.
Proof. unfold if_chosen. destruct b; [apply copied_shorter|cbn; lia]. Qed.
Lemma filter_shorter hg search strict opt invert r rest : List.length (e_text (filter_visit hg search strict opt invert r rest)) <= List.length rest.
Proof.
  unfold filter_visit. destruct opt; try apply chosen_shorter; [| |apply with_content_shorter].
  - destruct (header_of _ _); [apply chosen_shorter|apply with_content_shorter].
  - destruct (is_resp r); [|cbn; lia]. destruct (header_of _ _); [|apply with_content_shorter]. destruct (startswith _ _); [apply with_content_shorter|cbn; lia].
Qed.
Lemma open_any gunzip i text : file_holds gunzip i text -> exists gz st, open_input gunzip i = Ret st /\ ready_on gz st 0 text /\ f_strict (s_fh st) = true.
Proof.
  intros [H|H]; [exists false; rewrite (open_plain _ _ _ H)|exists true; rewrite (open_gz _ _ _ H)]; eexists; (split; [reflexivity|]); (split; [repeat split|reflexivity]).
Qed.
Lemma any_files gunzip body visit : (forall gz, handles gz true body visit) -> (forall r rest, List.length (e_text (visit r rest)) <= List.length rest) ->
  forall (files : list (input * bytes)), Forall (fun f => file_holds gunzip (fst f) (snd f)) files ->
  forall acc out o, files_run (fun f => tool_run visit (snd f)) files out o <-> over_files gunzip (each_record body) (map fst files) acc = (o, acc ++ out).
Proof.
  intros Hb Hl files Hf. induction Hf as [|[i text] files Hi Hfs IH]; intros acc out o; cbn [map over_files fst snd] in *.
  - split; [intro H; inversion H; subst; rewrite app_nil_r; reflexivity|]. intro H. injection H as <- H. rewrite <- (app_nil_r acc) in H at 1. apply app_inv_head in H. subst out. constructor.
  - destruct (open_any _ _ _ Hi) as (gz & st & Eo & Hrd & Hs). rewrite Eo.
    pose proof (any_stream gz true body visit st 0 text (Hb gz) Hl Hrd Hs acc) as A. unfold each_record. split.
    + intro H. inversion H as [|? ? ? ? Hr Hn|? ? out1 out2 ? Hr Hrest]; subst; cbn [snd] in Hr.
      * apply A in Hr as [st' ->]. destruct o as [[]|e|]; [congruence|reflexivity|reflexivity].
      * apply A in Hr as [st' ->]. rewrite app_assoc. apply IH. exact Hrest.
    + destruct (tool_total visit Hl (List.length text) text (le_n _)) as (out1 & o1 & H). pose proof H as H'. apply A in H' as [st' ->].
      destruct o1 as [[]|e|].
      * intro E. destruct (over_files gunzip (fun s name st => match for_records body s st with (o, s', _) => (o, s') end) (map fst files) (acc ++ out1)) as [o2 s2] eqn:E2.
        assert (X : exists out2, out = out1 ++ out2 /\ files_run (fun f => tool_run visit (snd f)) files out2 o).
        { assert (T : exists out2 o2, files_run (fun f => tool_run visit (snd f)) files out2 o2).
          { clear -Hl. induction files as [|[j t] files IH]; [do 2 eexists; constructor|]. destruct (tool_total visit Hl (List.length t) t (le_n _)) as (oa & ob & H). destruct IH as (oc & od & IH).
            destruct ob as [[]|e|]; [do 2 eexists; eapply files_more; [exact H|exact IH]|do 2 eexists; eapply files_stop; [exact H|discriminate]|do 2 eexists; eapply files_stop; [exact H|discriminate]]. }
          destruct T as (oc & od & T). pose proof T as T'. apply (IH (acc ++ out1)) in T'. unfold each_record in T'. rewrite E2 in T'. injection T' as -> ->. injection E as -> E.
          rewrite <- app_assoc in E. apply app_inv_head in E. subst out. exists oc. auto. }
        destruct X as (out2 & -> & X). eapply files_more; [exact H|exact X].
      * intro E. injection E as <- E. apply app_inv_head in E. subst out1. apply files_stop; [exact H|discriminate].
      * intro E. injection E as <- E. apply app_inv_head in E. subst out1. apply files_stop; [exact H|discriminate].
Qed.

(** ** C74 *)
(** copying or filtering the records of any stream - a file ([strict]), or BytesIO - with the library *)
Theorem C74_any_stream : forall http_gz unzlib ungzip search (gz strict : bool) (st : stream) (pos : nat) (text out acc : bytes) (o : outcome unit),
  ready_on gz st pos text -> f_strict (s_fh st) = strict ->
  (forall ogz decode, tool_run (copy_visit http_gz unzlib ungzip strict ogz decode) text out o <->
     exists st', for_records (w2w_process http_gz unzlib ungzip ogz decode) acc st = (o, acc ++ out, st')) /\
  (forall opt invert, tool_run (filter_visit http_gz search strict opt invert) text out o <->
     exists st', for_records (filter_record http_gz search opt invert) acc st = (o, acc ++ out, st')).
Proof.
  intros hg uz ug search gz strict st pos text out acc o Hrd Hs. split; intros.
  - eapply any_stream; [apply w2w_handles|apply copy_shorter|exact Hrd|exact Hs].
  - eapply any_stream; [apply filter_handles|apply filter_shorter|exact Hrd|exact Hs].
Qed.
(** warc2warc, with all its options, on any files *)
Theorem C74_warc2warc_any_files : forall gunzip http_gz unzlib ungzip (gz : option gzipper) (decode : bool) (files : list (input * bytes)) (out : bytes) (o : outcome unit),
  Forall (fun f => file_holds gunzip (fst f) (snd f)) files ->
  (files_run (fun f => tool_run (copy_visit http_gz unzlib ungzip true gz decode) (snd f)) files out o <->
   warc2warc gunzip http_gz unzlib ungzip gz decode (map fst files) = (o, out)).
Proof.
  intros gunzip hg uz ug gz decode files out o Hf. apply (any_files gunzip _ _ (fun g => w2w_handles hg uz ug g true gz decode) (fun r rest => copy_shorter hg uz ug true gz decode r rest) files Hf []).
Qed.
(** warcfilter, with all its options, on any files *)
Theorem C74_warcfilter_any_files : forall gunzip http_gz search (opt : fopt) (invert : bool) (files : list (input * bytes)) (out : bytes) (o : outcome unit),
  Forall (fun f => file_holds gunzip (fst f) (snd f)) files ->
  (files_run (fun f => tool_run (filter_visit http_gz search true opt invert) (snd f)) files out o <->
   warcfilter gunzip http_gz search opt invert (map fst files) = (o, out)).
Proof.
  intros gunzip hg search opt invert files out o Hf. apply (any_files gunzip _ _ (fun g => filter_handles hg search g true opt invert) (fun r rest => filter_shorter hg search true opt invert r rest) files Hf []).
Qed.

(** ** Concrete cases: two files with junk, a folded header, bare line feeds, a short payload and negative lengths *)
Definition any_head (num len : bytes) : bytes := B "WARC/" ++ num ++ CRLF ++ B "WARC-Type: response" ++ [LF] ++ B " x" ++ CRLF ++ B "Content-Length:" ++ len ++ CRLF ++ CRLF.
Definition any_good : input := mkin (B "a.warc") (B "junk" ++ [LF] ++ any_head (B "1.0") (B "3") ++ B "abc" ++ CRLF ++ any_head (B "0.18") (B "0") ++ CRLF).
Definition any_short : input := mkin (B "b.warc") (B "x" ++ any_head (B "1.0") (B "9") ++ B "abc").
Definition any_negative (len : bytes) : input := mkin (B "c.warc") (any_head (B "1.0") len ++ B "abc").
Definition any_files_of (l : list input) : list (input * bytes) := map (fun i => (i, in_data i)) l.
Definition any_out (num len body : bytes) : bytes := B "WARC/" ++ num ++ CRLF ++ B "WARC-Type: response x" ++ CRLF ++ B "Content-Length: " ++ len ++ CRLF ++ CRLF ++ body.
Lemma any_name s : endswith (B ".gz") s = false -> forall t, s <> t ++ B ".gz".
Proof. intros H t E. assert (endswith (B ".gz") s = true) by (apply endswith_iff; eauto). congruence. Qed.
Lemma any_holds l : (forall i, In i l -> In i [any_good; any_short; any_negative (B "-1"); any_negative (B "-2")]) ->
  Forall (fun f => file_holds (fun _ => []) (fst f) (snd f)) (any_files_of l).
Proof.
  intro H. apply Forall_forall. intros f Hf. apply in_map_iff in Hf as (i & <- & Hi). cbn [fst snd]. left. apply H in Hi.
  repeat (destruct Hi as [<-|Hi]; [split; [apply any_name; reflexivity|split; [intros t E; revert E; vm_compute; discriminate|reflexivity]]|]). destruct Hi.
Qed.
Example C74_hypotheses_met :
  let run := files_run (fun f => tool_run (copy_visit (fun _ => Diverge) (fun _ => None) (fun _ => None) true None false) (snd f)) in
  (* everything read is written, with CRLF line ends, unfolded; the short payload as far as it goes, then the error *)
  run (any_files_of [any_good; any_short; any_good])
    (any_out (B "1.0") (B "3") (B "abc") ++ terminator ++ any_out (B "0.18") (B "0") [] ++ terminator ++ any_out (B "1.0") (B "9") (B "abc") ++ terminator) (Raise E_short) /\
  run (any_files_of [any_negative (B "-1")]) (any_out (B "1.0") (B "-1") (B "abc")) (Raise EValueError) /\
  run (any_files_of [any_negative (B "-2")]) (any_out (B "1.0") (B "-2") []) (Raise EValueError).
Proof.
  cbn zeta. split; [|split].
  - eapply C74_warc2warc_any_files; [apply any_holds; cbn [In]; tauto|vm_compute; reflexivity].
  - eapply C74_warc2warc_any_files; [apply any_holds; cbn [In]; tauto|vm_compute; reflexivity].
  - eapply C74_warc2warc_any_files; [apply any_holds; cbn [In]; tauto|vm_compute; reflexivity].
Qed.
