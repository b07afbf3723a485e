(** C71: every text has one reading - what the WARC reader makes of any text whatsoever.
    C48: exactly which files warcvalid accepts. *)
From Verif Require Export PropsValid.
From Coq Require Import String List Lia ZArith.
Open Scope list_scope.

(** ** Specification *)
(** a header as it stands in the file: its line, and the lines that continue it *)
Definition hgroup : Type := bytes * list bytes.
Definition hgroup_lines (g : hgroup) : list bytes := fst g :: snd g.
Fixpoint before_colon (l : bytes) : bytes :=
  match l with [] => [] | c :: t => if N.eqb c COLON then [] else c :: before_colon t end.
Fixpoint behind_colon (l : bytes) : bytes :=
  match l with [] => [] | c :: t => if N.eqb c COLON then t else behind_colon t end.
(** its meaning: what stands before the first colon, and what stands behind it and on the
    continuation lines, each without white space around it and joined by single spaces *)
Definition hgroup_header (g : hgroup) : header :=
  (strip (before_colon (fst g)), join (B " ") (map strip (behind_colon (fst g) :: snd g))).
(** remarks on it: line ends that are not CR LF - the header line with nothing at all behind the
    colon, and a continuation line of white space only, are taken to end in LF - and values *)
Definition line_break (l : bytes) : bytes := if endswith CRLF l then CRLF else [last l 0%N].
Definition remark (e : perr) (nl : bytes) : list perr := if bytes_eqb nl CRLF then [] else [e].
Definition cont_remark (c : bytes) : list perr :=
  let nl := if forallb is_space c then [last c 0%N] else line_break c in remark (ErrFollowNl c nl) nl.
Definition hgroup_errors (g : hgroup) : list perr :=
  (let nl := if bytes_eqb (behind_colon (fst g)) CRLF then [LF] else line_break (fst g) in remark (ErrHeaderNl nl) nl) ++
  concat (map cont_remark (snd g)) ++
  value_errors (hgroup_header g).
(** a header block: every header line has a colon and a line end and is not blank; the lines
    that look like continuation lines are continuation lines, except the very first *)
Definition heads_ok (gs : list hgroup) : Prop :=
  Forall (fun g => blank_text (fst g) = false /\ header_like (fst g) = true /\ Forall (fun c => cont_text_line c = true) (snd g)) gs /\
  Forall (fun g => cont_text_line (fst g) = false) (tl gs).
(** it ends with a blank line (which is not taken for a continuation line), or with the file *)
Definition ends_block (gs : list hgroup) (stop more : list bytes) : Prop :=
  stop = [] /\ more = [] \/
  exists b, stop = [b] /\ blank_text b = true /\ (gs = [] \/ cont_text_line b = false).

(** a record as it stands in the file, up to its payload *)
Record reading : Type := mkreading {
  rd_before : list bytes;                                        (* lines before the version line *)
  rd_pfx : bytes; rd_ws : bytes; rd_tag : bytes; rd_num : bytes; rd_nl : bytes;   (* the version line *)
  rd_heads : list hgroup;
  rd_stop : list bytes }.                                        (* the blank line, unless the file ends *)
Definition rd_vline (r : reading) : bytes := rd_pfx r ++ rd_ws r ++ rd_tag r ++ rd_num r ++ rd_nl r.
Definition rd_lines (r : reading) : list bytes :=
  rd_before r ++ rd_vline r :: concat (map hgroup_lines (rd_heads r)) ++ rd_stop r.
Definition reads_as (ls : list bytes) (r : reading) (more : list bytes) : Prop :=
  ls = rd_lines r ++ more /\
  Forall (fun l => version_line l = false) (rd_before r) /\ List.length (junk_lines (rd_before r)) <= 5 /\
  version_as (rd_vline r) (rd_pfx r) (rd_ws r) (rd_tag r) (rd_num r) (rd_nl r) /\ In (rd_num r) known_numbers /\
  heads_ok (rd_heads r) /\ ends_block (rd_heads r) (rd_stop r) more.
(** what it means *)
Definition rd_headers (r : reading) : list header := map hgroup_header (rd_heads r).
Definition rd_errors (r : reading) : list perr :=
  map ErrIgnored (junk_lines (rd_before r)) ++ remark (ErrVersionNl (rd_nl r)) (rd_nl r) ++
  (match rd_pfx r with [] => [] | p => [ErrPrefix p] end) ++ concat (map hgroup_errors (rd_heads r)).
Definition rd_record (r : reading) : record :=
  mkrec (RWarc (rd_ws r ++ rd_tag r ++ rd_num r)) (rd_headers r) (rd_errors r) None CF_stream true.

(** a reader between two records of an uncompressed or gzipped file, at byte [pos] of its text;
    [text] is the rest of it.  Offsets are told only in uncompressed files, and if asked for. *)
Definition ready_on (gz : bool) (st : stream) (pos : nat) (text : bytes) : Prop :=
  s_kind st = (if gz then SGzipRecord else SPlain) /\ s_parser st = PWarc /\ s_eoc st = None /\ f_pos (s_fh st) = pos /\ f_rest (s_fh st) = text.
Definition told (shown : bool) (n : nat) : option nat := if shown then Some n else None.

(** ** Lines *)
Lemma told_offset st gz p b n text : ready_on gz st p text -> item_offset (s_kind st) b (StreamFacts.pos st + n) = told (b && negb gz) (p + n).
Proof. intros (Hk & _ & _ & Hpos & _). unfold item_offset, told. rewrite Hk. change (StreamFacts.pos st) with (f_pos (s_fh st)). rewrite Hpos. destruct gz, b; reflexivity. Qed.
Lemma split_colon l : split_once 58 l = if existsb (N.eqb COLON) l then Some (before_colon l, behind_colon l) else None.
Proof.
  induction l as [|c t IH]; [reflexivity|]. cbn [split_once existsb before_colon behind_colon]. unfold COLON in *.
  rewrite (N.eqb_sym 58 c). destruct (N.eqb c 58); [reflexivity|]. cbn [orb]. rewrite IH. destruct (existsb (N.eqb 58) t); reflexivity.
Qed.
Lemma endswith_crlf l : endswith CRLF l = true <-> exists t, l = t ++ CRLF.
Proof. apply endswith_iff. Qed.
Lemma chop_break l v nl : chop l = Some (v, nl) -> nl = line_break l.
Proof.
  intro H. pose proof (chop_some _ _ _ H) as E. unfold line_break. destruct (chop_nl _ _ _ H) as [ -> | [ -> | -> ] ].
  - destruct (endswith CRLF l) eqn:X; [reflexivity|]. rewrite (proj2 (endswith_crlf l)) in X by eauto. discriminate.
  - destruct (endswith CRLF l) eqn:X; [|rewrite E, last_last; reflexivity]. apply endswith_crlf in X as [t X].
    rewrite E in X. change CRLF with ([CR] ++ [LF]) in X. rewrite app_assoc in X. apply app_inj_tail in X as [_ X]. discriminate.
  - destruct (endswith CRLF l) eqn:X; [|rewrite E, last_last; reflexivity]. apply endswith_crlf in X as [t X].
    rewrite X, chop_crlf in H. discriminate.
Qed.
Lemma colon_split l : existsb (N.eqb COLON) l = true -> l = before_colon l ++ COLON :: behind_colon l.
Proof.
  induction l as [|c t IH]; [discriminate|]. cbn [existsb before_colon behind_colon]. destruct (N.eqb_spec COLON c) as [<-|Hc].
  - intros _. rewrite N.eqb_refl. reflexivity.
  - cbn [orb]. intro H. destruct (N.eqb_spec c COLON); [congruence|]. cbn [app]. f_equal. auto.
Qed.
Lemma break_app a l : 2 <= List.length l -> line_break (a ++ l) = line_break l.
Proof.
  intro H. unfold line_break. assert (E : endswith CRLF (a ++ l) = endswith CRLF l).
  { destruct (endswith CRLF l) eqn:X.
    - apply endswith_crlf in X as [t ->]. apply endswith_crlf. exists (a ++ t). rewrite app_assoc. reflexivity.
    - destruct (endswith CRLF (a ++ l)) eqn:Y; [|reflexivity]. apply endswith_crlf in Y as [t Y]. rewrite <- X. symmetry. apply endswith_crlf.
      assert (L : List.length (a ++ l) = List.length t + 2) by (rewrite Y, app_length; reflexivity). rewrite app_length in L.
      exists (skipn (List.length a) t). apply (f_equal (skipn (List.length a))) in Y.
      rewrite skipn_app, skipn_all, Nat.sub_diag in Y. cbn [app skipn] in Y. rewrite Y, skipn_app.
      replace (List.length a - List.length t) with 0 by lia. reflexivity. }
  rewrite E. destruct (endswith CRLF l); [reflexivity|]. f_equal. destruct (last_case l) as [->|(u & x & ->)]; [cbn in H; lia|].
  rewrite app_assoc, !last_last. reflexivity.
Qed.
Lemma break_last a c : (a <> [CR] \/ c <> LF) -> List.length a <= 1 -> line_break (a ++ [c]) = [c].
Proof.
  intros H L. unfold line_break. rewrite last_last. destruct (endswith CRLF (a ++ [c])) eqn:X; [|reflexivity]. apply endswith_crlf in X as [t X].
  change CRLF with ([CR] ++ [LF]) in X. rewrite app_assoc in X. apply app_inj_tail in X as [X ->].
  destruct t as [|? [|? ?]]; [|subst a; cbn in L; lia|subst a; cbn in L; rewrite app_length in L; cbn in L; lia]. destruct H as [H|H]; [elim H; exact X|elim H; reflexivity].
Qed.
Lemma header_group_parts l : one_line l -> header_like l = true ->
  exists v nl, header_parts l = Some (before_colon l, v, nl) /\ strip v = strip (behind_colon l) /\
    nl = (if bytes_eqb (behind_colon l) CRLF then [LF] else line_break l).
Proof.
  intros H1 H. unfold header_like in H. apply andb_true_iff in H as [Hc Hl]. pose proof (colon_split l Hc) as El.
  assert (Hn : l <> []) by (intros ->; discriminate). apply (last_ends l Hn) in Hl.
  set (rest := behind_colon l) in *. set (nm := before_colon l) in *.
  assert (Hr : ends_nl rest).
  { change (COLON :: rest) with ([COLON] ++ rest) in El. rewrite app_assoc in El. rewrite El in Hl. apply (ends_nl_suffix _ _ Hl).
    intros E. rewrite E, app_nil_r in Hl. destruct Hl as (t & c & X & Hx). apply app_inj_tail in X as [_ <-]. destruct Hx; discriminate. }
  destruct (after_colon_some rest Hr) as (v & nl & Ha). exists v, nl. split.
  { unfold header_parts. rewrite split_colon, Hc. fold rest. fold nm. rewrite Ha. reflexivity. }
  split; [exact (after_colon_strip _ _ _ Ha)|].
  destruct (bytes_eqb rest CRLF) eqn:Ec.
  { apply bytes_eqb_eq in Ec. rewrite Ec in Ha. cbn in Ha. injection Ha as _ <-. reflexivity. }
  assert (Hne : rest <> CRLF). { intro X. rewrite X in Ec. discriminate. }
  assert (Eb : nl = line_break rest).
  { unfold after_colon in Ha. destruct rest as [|c t]; [discriminate|]. destruct (is_space c) eqn:Es; [|exact (chop_break _ _ _ Ha)].
    destruct (chop t) as [[v0 nl0]|] eqn:Et; [|exact (chop_break _ _ _ Ha)]. injection Ha as -> ->.
    rewrite (chop_break _ _ _ Et). destruct t as [|a [|b t]]; [discriminate| |symmetry; apply (break_app [c]); cbn; lia].
    transitivity [a]; [apply (break_last [] a); [left; discriminate|cbn; lia]|]. symmetry. apply (break_last [c] a); [|cbn; lia].
    destruct (N.eq_dec a LF) as [->|]; [left|right; assumption]. intro X. injection X as ->. apply Hne. reflexivity. }
  rewrite Eb, El. clear - Hr Hne. change (COLON :: rest) with ([COLON] ++ rest). rewrite app_assoc.
  destruct rest as [|a [|b t]]; [destruct Hr as ([|? ?] & ? & ? & _); discriminate| |symmetry; apply break_app; cbn; lia].
  rewrite <- app_assoc. cbn [app]. change (nm ++ COLON :: [a]) with (nm ++ [COLON; a]). rewrite break_app by (cbn; lia).
  transitivity [a]; [apply (break_last [] a); [left; discriminate|cbn; lia]|]. symmetry. apply (break_last [COLON] a); [left; discriminate|cbn; lia].
Qed.
Lemma cont_text_same l : cont_text_line l = cont_line l. Proof. reflexivity. Qed.
Lemma cont_group_errors cs : Forall (fun c => cont_text_line c = true) cs -> Forall one_line cs ->
  cont_errs cs = concat (map cont_remark cs).
Proof.
  unfold cont_errs. intros H H1. f_equal. apply map_ext_in. intros c Hc. rewrite Forall_forall in H. specialize (H c Hc).
  assert (E : cont_nl c = if forallb is_space c then [last c 0%N] else line_break c).
  { unfold cont_nl. destruct (forallb is_space c); [reflexivity|].
    assert (Hn : c <> []) by (intros ->; discriminate).
    assert (He : ends_nl c). { apply (last_ends c Hn). destruct c as [|a [|b [|d t]]]; try discriminate. apply andb_true_iff in H as [_ H]. exact H. }
    apply chop_ends in He as [[v nl] He]. rewrite He. exact (chop_break _ _ _ He). }
  unfold cont_remark. rewrite E. reflexivity.
Qed.
Lemma hparse_group g ls hs errs clen : one_line (fst g) -> Forall one_line (snd g) ->
  blank_text (fst g) = false -> header_like (fst g) = true -> Forall (fun c => cont_text_line c = true) (snd g) ->
  (match ls with l :: _ => cont_line l = false | [] => True end) ->
  hparse (hgroup_lines g ++ ls) None hs errs clen =
  match hparse ls None (hs ++ [hgroup_header g]) (errs ++ hgroup_errors g)
               (len_after (fst (hgroup_header g)) (snd (hgroup_header g)) clen) with
  | Some (r, k) => Some (r, List.length (concat (hgroup_lines g)) + k)
  | None => None
  end.
Proof.
  intros H1 Hcs1 Hb Hh Hcs Hl. unfold hgroup_lines. cbn [app hparse]. change (blank_line (fst g)) with (blank_text (fst g)). rewrite Hb.
  destruct (header_group_parts (fst g) H1 Hh) as (v & nl & -> & Hv & Hnl). rewrite hparse_cont.
  assert (T : take_cont (snd g ++ ls) = snd g /\ drop_cont (snd g ++ ls) = ls).
  { clear - Hcs Hl. induction Hcs as [|c cs Hc _ IH]; cbn [app take_cont drop_cont].
    - destruct ls as [|l ls]; [auto|]. cbn [take_cont drop_cont]. rewrite Hl. auto.
    - change (cont_line c) with (cont_text_line c). rewrite Hc. destruct IH as [-> ->]. auto. }
  destruct T as [-> ->]. rewrite cont_group_errors by assumption. unfold finish. cbn [fst snd].
  rewrite note_header_eq by apply strip_is_trimmed.
  assert (Eh : (strip (before_colon (fst g)), join [32%N] ([strip v] ++ map strip (snd g))) = hgroup_header g).
  { unfold hgroup_header. cbn [map app]. rewrite Hv. reflexivity. }
  rewrite Eh.
  assert (Ee : ((errs ++ nl_error nl (ErrHeaderNl nl)) ++
      concat (map cont_remark (snd g))) ++
      value_errors (hgroup_header g) = errs ++ hgroup_errors g).
  { unfold hgroup_errors. rewrite Hnl. cbn zeta. rewrite <- !app_assoc. reflexivity. }
  rewrite Ee. rewrite <- Eh. cbn [fst snd].
  destruct (hparse ls None _ _ _) as [[r k]|]; [|reflexivity].
  cbn [concat]. rewrite app_length, Nat.add_assoc. reflexivity.
Qed.
Definition not_cont (ls : list bytes) : Prop := match ls with l :: _ => cont_line l = false | [] => True end.
Lemma hparse_groups gs : forall ls hs errs clen, Forall one_line (concat (map hgroup_lines gs)) -> heads_ok gs -> (gs = [] \/ not_cont ls) ->
  hparse (concat (map hgroup_lines gs) ++ ls) None hs errs clen =
  match hparse ls None (hs ++ map hgroup_header gs) (errs ++ concat (map hgroup_errors gs))
               (declared_length (map hgroup_header gs) clen) with
  | Some (r, k) => Some (r, List.length (concat (concat (map hgroup_lines gs))) + k)
  | None => None
  end.
Proof.
  induction gs as [|g gs IH]; intros ls hs errs clen H1 [Hg Ht] Hl.
  - cbn [map concat app declared_length List.length plus]. rewrite !app_nil_r. destruct (hparse ls None hs errs clen) as [[r k]|]; reflexivity.
  - cbn [map concat] in H1. apply Forall_app in H1 as [H1 H1']. inversion H1 as [|? ? Hl1 Hcs1]; subst.
    inversion Hg as [|? ? (Hb & Hh & Hcs) Hg']; subst. cbn [tl] in Ht. cbn [map concat]. rewrite <- app_assoc.
    assert (Hn : not_cont ls) by (destruct Hl; [discriminate|assumption]).
    rewrite hparse_group; try assumption.
    + rewrite IH; [|assumption|split; [assumption|destruct gs; [constructor|inversion Ht; assumption]]|right; exact Hn].
      rewrite <- !app_assoc. cbn [app].
      change (declared_length (hgroup_header g :: map hgroup_header gs) clen) with
        (let '(n, v) := hgroup_header g in declared_length (map hgroup_header gs) (len_after n v clen)).
      destruct (hgroup_header g) as [n v] eqn:Egh. cbn [fst snd].
      destruct (hparse ls None _ _ _) as [[r k]|]; [|reflexivity]. rewrite concat_app, app_length, Nat.add_assoc. reflexivity.
    + destruct gs as [|g2 gs]; [exact Hn|]. cbn [map concat hgroup_lines app]. inversion Ht; assumption.
Qed.
Lemma hparse_block gs stop more errs : Forall one_line (concat (map hgroup_lines gs)) -> heads_ok gs -> ends_block gs stop more ->
  hparse (concat (map hgroup_lines gs) ++ stop ++ more) None [] errs 0%Z =
  Some (map hgroup_header gs, errs ++ concat (map hgroup_errors gs), declared_length (map hgroup_header gs) 0,
        List.length (concat (concat (map hgroup_lines gs) ++ stop))).
Proof.
  intros H1 Hg Hs. destruct Hs as [[-> ->]|(b & -> & Hb & Hc)].
  - rewrite hparse_groups; [|assumption|assumption|right; exact I]. cbn [app hparse]. rewrite Nat.add_0_r, !app_nil_r. reflexivity.
  - rewrite hparse_groups; [|assumption|assumption|destruct Hc; [left; assumption|right; assumption]]. cbn [app hparse].
    change (blank_line b) with (blank_text b). rewrite Hb. cbn [app]. rewrite concat_app, app_length. cbn [concat]. rewrite app_nil_r. reflexivity.
Qed.
Lemma reads_as_parse ls r more : ok_lines ls -> reads_as ls r more ->
  wparse ls = WRec (rd_record r) (declared_length (rd_headers r) 0)
    (List.length (concat (rd_before r)) + List.length (rd_pfx r)) (List.length (concat (rd_lines r))).
Proof.
  intros Hok (-> & Hbv & Hb5 & Hv & Hn & Hg & Hs). unfold rd_lines in Hok |- *.
  rewrite <- app_assoc in Hok |- *. cbn [app] in Hok |- *. rewrite <- app_assoc in Hok |- *.
  apply Forall_app in Hok as [Hok1 Hok]. inversion Hok as [|? ? [Hv1 _] Hok2]; subst. apply Forall_app in Hok2 as [Hok2 _].
  assert (Hb : before_version (rd_before r)) by (split; assumption). apply (before_version_parts _ Hok1) in Hb as [Hb1 Hb2].
  unfold wparse. rewrite (vfind_hit (rd_before r) [] _ _ _ _ _ _ Hb1 Hb2 (version_as_parts _ _ _ _ _ _ Hv1 Hv)).
  apply known_in in Hn. rewrite Hn. rewrite hparse_block; [|eapply Forall_impl; [|exact Hok2]; intros ? []; assumption|assumption|assumption].
  unfold rd_record, rd_errors, rd_headers. f_equal.
  - f_equal. unfold remark, nl_error. rewrite <- !app_assoc. cbn [app]. destruct (rd_pfx r); reflexivity.
  - rewrite (concat_app (rd_before r)), app_length. cbn [concat]. rewrite (app_length (rd_vline r)). lia.
Qed.
(** ** C71 *)
(** the record and how the file stands behind its head *)
Theorem C71_reading_gives_record : forall (gz : bool) (st : stream) (pos : nat) (text : bytes) (offsets : bool) (r : reading) (more : list bytes),
  ready_on gz st pos text -> reads_as (lines_of text) r more ->
  exists st1,
    read_record st offsets =
      (Ret (told (offsets && negb gz) (pos + List.length (concat (rd_before r)) + List.length (rd_pfx r)), Some (rd_record r), []), st1) /\
    s_eoc st1 = Some (declared_length (rd_headers r) 0) /\
    f_rest (s_fh st1) = concat more /\ f_pos (s_fh st1) = pos + List.length (concat (rd_lines r)) /\
    s_kind st1 = s_kind st /\ s_parser st1 = PWarc /\ f_data (s_fh st1) = f_data (s_fh st) /\ f_strict (s_fh st1) = f_strict (s_fh st).
Proof.
  intros gz st p text b r more Hrd Hra. pose proof Hrd as (Hk & Hp & He & Hpos & Hr).
  assert (Hk' : s_kind st <> SGzipFile) by (rewrite Hk; destruct gz; discriminate).
  pose proof (read_record_any st b He Hp Hk') as H. cbn zeta in H. unfold rest in H. rewrite Hr in H.
  rewrite (reads_as_parse _ r more (lines_ok text) Hra) in H. rewrite H. eexists. split.
  { rewrite (told_offset _ _ _ _ _ _ Hrd), Nat.add_assoc. reflexivity. }
  split; [reflexivity|]. split.
  { change (f_rest (s_fh (set_eoc ?s _))) with (rest s). rewrite rest_adv. unfold rest. rewrite Hr.
    destruct Hra as (El & _). rewrite <- (concat_lines text), El, concat_app, skipn_app, skipn_all, Nat.sub_diag. reflexivity. }
  split; [cbn; rewrite Hpos; reflexivity|]. split; [reflexivity|]. split; [exact Hp|]. split; reflexivity.
Qed.
Lemma block_rest ls : stuck true ls \/ exists cs gs stop more, ls = cs ++ concat (map hgroup_lines gs) ++ stop ++ more /\
  Forall (fun c => cont_text_line c = true) cs /\
  Forall (fun g => blank_text (fst g) = false /\ header_like (fst g) = true /\ Forall (fun c => cont_text_line c = true) (snd g)) gs /\
  Forall (fun g => cont_text_line (fst g) = false) gs /\
  (stop = [] /\ more = [] \/ exists b, stop = [b] /\ blank_text b = true /\ cont_text_line b = false).
Proof.
  induction ls as [|l t IH]; [right; exists [], [], [], []; repeat split; try constructor; auto|]. cbn [stuck andb].
  destruct (cont_text_line l) eqn:Ec.
  - destruct IH as [H|(cs & gs & stop & more & -> & H1 & H2 & H3 & H4)]; [left; exact H|right].
    exists (l :: cs), gs, stop, more. split; [reflexivity|]. split; [constructor; assumption|]. split; [exact H2|]. split; [exact H3|exact H4].
  - destruct (blank_text l) eqn:Eb.
    + right. exists [], [], [l], t. split; [reflexivity|]. split; [constructor|]. split; [constructor|]. split; [constructor|]. right. exists l. auto.
    + destruct (header_like l) eqn:Eh; [|left; exact I].
      destruct IH as [H|(cs & gs & stop & more & -> & H1 & H2 & H3 & H4)]; [left; exact H|right].
      exists [], ((l, cs) :: gs), stop, more. split; [cbn [app map concat hgroup_lines fst snd]; rewrite <- app_assoc; reflexivity|]. split; [constructor|].
      split; [constructor; [cbn [fst snd]; auto|exact H2]|]. split; [constructor; assumption|exact H4].
Qed.
Lemma block_split ls : stuck false ls \/ exists gs stop more, ls = concat (map hgroup_lines gs) ++ stop ++ more /\ heads_ok gs /\ ends_block gs stop more.
Proof.
  destruct ls as [|l t]; [right; exists [], [], []; split; [reflexivity|]; split; [split; constructor|left; auto]|]. cbn [stuck andb].
  destruct (blank_text l) eqn:Eb.
  - right. exists [], [l], t. split; [reflexivity|]. split; [split; constructor|]. right. exists l. auto.
  - destruct (header_like l) eqn:Eh; [|left; exact I].
    destruct (block_rest t) as [H|(cs & gs & stop & more & -> & H1 & H2 & H3 & H4)]; [left; exact H|right].
    exists ((l, cs) :: gs), stop, more. split; [cbn [app map concat hgroup_lines fst snd]; rewrite <- app_assoc; reflexivity|].
    split; [split; [constructor; [cbn [fst snd]; auto|exact H2]|exact H3]|].
    destruct H4 as [H4|(b & -> & Hb & Hc)]; [left; exact H4|right]. exists b. auto.
Qed.
Lemma version_search ls : forall n, n <= 5 ->
  (exists before l t, ls = before ++ l :: t /\ Forall (fun x => version_line x = false) before /\ n + List.length (junk_lines before) <= 5 /\ version_line l = true) \/
  (Forall (fun x => version_line x = false) ls /\ n + List.length (junk_lines ls) <= 5) \/
  (exists before l t, ls = before ++ l :: t /\ Forall (fun x => version_line x = false) (before ++ [l]) /\ n + List.length (junk_lines before) = 5 /\ blank_text l = false).
Proof.
  induction ls as [|l t IH]; intros n Hn; [right; left; split; [constructor|cbn; lia]|].
  destruct (version_line l) eqn:Ev; [left; exists [], l, t; split; [reflexivity|]; split; [constructor|]; split; [cbn; lia|exact Ev]|].
  destruct (blank_text l) eqn:Eb.
  - destruct (IH n Hn) as [(b & x & u & -> & H1 & H2 & H3)|[[H1 H2]|(b & x & u & -> & H1 & H2 & H3)]].
    + left. exists (l :: b), x, u. split; [reflexivity|]. split; [constructor; assumption|]. unfold junk_lines in *. cbn [filter]. rewrite Eb. auto.
    + right; left. split; [constructor; assumption|]. unfold junk_lines in *. cbn [filter]. rewrite Eb. exact H2.
    + right; right. exists (l :: b), x, u. split; [reflexivity|]. split; [constructor; assumption|]. unfold junk_lines in *. cbn [filter]. rewrite Eb. auto.
  - destruct (Nat.eq_dec n 5) as [->|Hn'].
    + right; right. exists [], l, t. split; [reflexivity|]. split; [constructor; [exact Ev|constructor]|]. split; [reflexivity|exact Eb].
    + destruct (IH (S n) ltac:(lia)) as [(b & x & u & -> & H1 & H2 & H3)|[[H1 H2]|(b & x & u & -> & H1 & H2 & H3)]].
      * left. exists (l :: b), x, u. split; [reflexivity|]. split; [constructor; assumption|]. unfold junk_lines in *. cbn [filter]. rewrite Eb. cbn [negb List.length]. split; [lia|exact H3].
      * right; left. split; [constructor; assumption|]. unfold junk_lines in *. cbn [filter]. rewrite Eb. cbn [negb List.length]. lia.
      * right; right. exists (l :: b), x, u. split; [reflexivity|]. split; [constructor; assumption|]. unfold junk_lines in *. cbn [filter]. rewrite Eb. cbn [negb List.length]. split; [lia|exact H3].
Qed.
Lemma no_version_parts ls : ok_lines ls -> Forall (fun x => version_line x = false) ls -> Forall (fun x => version_parts x = None) ls.
Proof. induction 1 as [|x t [Hx1 Hx2] Ht IH]; intro Hv; [constructor|]. inversion Hv; subst. constructor; [|auto]. apply version_line_none; auto. Qed.
(** a text is a record, or it makes the reader hang, or its version is unknown, or no version line
    is found before the end of the file or in the first lines; the answer in each case *)
Theorem C71_every_text : forall (gz : bool) (st : stream) (pos : nat) (text : bytes) (offsets : bool), ready_on gz st pos text ->
  let ls := lines_of text in
  let answer := read_record st offsets in
  let offset n := told (offsets && negb gz) (pos + n) in
  (exists r more, reads_as ls r more /\ fst answer = Ret (offset (List.length (concat (rd_before r)) + List.length (rd_pfx r)), Some (rd_record r), [])) \/
  (exists before vline block pfx ws tag num nl,
     ls = before ++ vline :: block /\ Forall (fun l => version_line l = false) before /\ List.length (junk_lines before) <= 5 /\
     version_as vline pfx ws tag num nl /\ In num known_numbers /\ stuck false block /\ fst answer = Diverge) \/
  (exists before vline block pfx ws tag num nl,
     ls = before ++ vline :: block /\ Forall (fun l => version_line l = false) before /\ List.length (junk_lines before) <= 5 /\
     version_as vline pfx ws tag num nl /\ ~ In num known_numbers /\ fst answer = Raise ETypeError) \/
  (Forall (fun l => version_line l = false) ls /\ List.length (junk_lines ls) <= 5 /\
     fst answer = Ret (offset (List.length text), None, map ErrIgnored (junk_lines ls)) /\ f_rest (s_fh (snd answer)) = []) \/
  (exists before line more,
     ls = before ++ line :: more /\ Forall (fun l => version_line l = false) (before ++ [line]) /\ List.length (junk_lines before) = 5 /\
     blank_text line = false /\
     fst answer = Ret (offset (List.length (concat (before ++ [line]))), None, map ErrIgnored (junk_lines (before ++ [line])) ++ [ErrTooMany]) /\
     f_rest (s_fh (snd answer)) = concat more).
Proof.
  intros gz st p text b Hst. cbn zeta. pose proof Hst as (Hk & Hp & He & Hpos & Hr).
  assert (Hk' : s_kind st <> SGzipFile) by (rewrite Hk; destruct gz; discriminate).
  pose proof (read_record_any st b He Hp Hk') as H. cbn zeta in H. unfold rest in H. rewrite Hr in H.
  pose proof (lines_ok text) as Hok. pose proof (concat_lines text) as Hcl.
  assert (Hoff : forall n, item_offset (s_kind st) b (StreamFacts.pos st + n) = told (b && negb gz) (p + n)) by (intro n; eapply told_offset; exact Hst).
  destruct (version_search (lines_of text) 0 ltac:(lia)) as [(before & l & t & El & Hb1 & Hb2 & Hl)|[[Hv H5]|(before & l & t & El & Hb1 & Hb2 & Hl)]].
  - apply version_line_as in Hl as (pfx & ws & tag & num & nl & Has).
    assert (Hl1 : one_line l). { rewrite El in Hok. apply Forall_app in Hok as [_ Hok]. inversion Hok as [|? ? [? _] _]; assumption. }
    assert (Hok1 : ok_lines before) by (rewrite El in Hok; apply Forall_app in Hok as [Hok _]; exact Hok).
    destruct (in_dec (list_eq_dec N.eq_dec) num known_numbers) as [Hn|Hn].
    + destruct (block_split t) as [Hs|(gs & stop & more & -> & Hg & Hs)].
      * right; left. exists before, l, t, pfx, ws, tag, num, nl. repeat (split; [assumption|]).
        assert (W : wparse (lines_of text) = WHang) by (apply (wparse_hang _ Hok); exists before, l, t, pfx, ws, tag, num, nl; split; [exact El|]; split; [split; assumption|auto]).
        rewrite W in H. exact H.
      * left. exists (mkreading before pfx ws tag num nl gs stop), more.
        assert (Hra : reads_as (lines_of text) (mkreading before pfx ws tag num nl gs stop) more).
        { pose proof Has as (Ev & _). split; [|split; [exact Hb1|split; [exact Hb2|split; [|split; [exact Hn|split; [exact Hg|exact Hs]]]]]].
          - rewrite El. unfold rd_lines, rd_vline. cbn [rd_before rd_pfx rd_ws rd_tag rd_num rd_nl rd_heads rd_stop]. rewrite <- Ev, <- app_assoc. cbn [app]. rewrite <- app_assoc. reflexivity.
          - unfold rd_vline. cbn [rd_pfx rd_ws rd_tag rd_num rd_nl]. rewrite <- Ev. exact Has. }
        split; [exact Hra|]. destruct (C71_reading_gives_record gz st p text b _ _ Hst Hra) as (st1 & E & _). rewrite E. cbn [fst].
        rewrite Nat.add_assoc. reflexivity.
    + right; right; left. exists before, l, t, pfx, ws, tag, num, nl. repeat (split; [assumption|]).
      assert (Hb : before_version before) by (split; assumption). apply (before_version_parts before Hok1) in Hb as [Hp1 Hp2].
      assert (W : wparse (lines_of text) = WBadVersion num).
      { rewrite El. unfold wparse. rewrite (vfind_hit before [] l t _ _ _ _ Hp1 Hp2 (version_as_parts _ _ _ _ _ _ Hl1 Has)).
        destruct (in_list num KNOWN_VERSIONS) eqn:Ek; [apply known_in in Ek; contradiction|reflexivity]. }
      rewrite W in H. exact H.
  - right; right; right; left. split; [exact Hv|]. split; [exact H5|]. cbn [plus] in H5.
    assert (W : wparse (lines_of text) = WNone (map ErrIgnored (junk_lines (lines_of text))) (List.length text)).
    { unfold wparse. rewrite (vfind_none (lines_of text) [] (no_version_parts _ Hok Hv)); [rewrite concat_lines; reflexivity|].
      unfold junk_errors. rewrite map_length. exact H5. }
    rewrite W in H. rewrite H. cbn [fst snd]. rewrite Hoff. split; [reflexivity|]. change (f_rest (s_fh ?s)) with (rest s).
    rewrite rest_adv. unfold rest. rewrite Hr. apply skipn_all.
  - right; right; right; right. exists before, l, t. split; [exact El|]. split; [exact Hb1|]. split; [exact Hb2|]. split; [exact Hl|].
    assert (Hok2 : ok_lines (before ++ [l])).
    { rewrite El in Hok. apply Forall_app in Hok as [Hok1 Hok2]. apply Forall_app. split; [exact Hok1|]. inversion Hok2; constructor; [assumption|constructor]. }
    pose proof (no_version_parts _ Hok2 Hb1) as Hp1. apply Forall_app in Hp1 as [Hp1 Hp2]. pose proof (Forall_inv Hp2) as Hp2'. cbn beta in Hp2'.
    assert (W : wparse (lines_of text) = WNone (map ErrIgnored (junk_lines (before ++ [l])) ++ [ErrTooMany]) (List.length (concat (before ++ [l])))).
    { rewrite El. unfold wparse. rewrite (vfind_give_up before [] l t Hp1); [reflexivity| |exact Hp2'|exact Hl]. cbn [plus List.length] in *.
      unfold junk_errors. rewrite map_length. exact Hb2. }
    rewrite W in H. rewrite H. cbn [fst snd]. rewrite Hoff. split; [reflexivity|]. change (f_rest (s_fh ?s)) with (rest s).
    rewrite rest_adv. unfold rest. rewrite Hr. assert (Et : text = concat (before ++ [l]) ++ concat t).
    { rewrite <- concat_app, <- app_assoc. cbn [app]. rewrite <- El. symmetry. exact Hcl. }
    rewrite Et at 1. rewrite skipn_app, skipn_all, Nat.sub_diag. reflexivity.
Qed.
(** no text can be read in two ways *)
Lemma conts_unique cs : forall cs' X X', Forall (fun c => cont_text_line c = true) cs -> Forall (fun c => cont_text_line c = true) cs' ->
  not_cont X -> not_cont X' -> cs ++ X = cs' ++ X' -> cs = cs' /\ X = X'.
Proof.
  induction cs as [|c cs IH]; intros [|c' cs'] X X' H H' HX HX' E; cbn [app] in E; [auto| | |].
  - subst X. inversion H' as [|? ? Hc _]; subst. cbn in HX. change (cont_line c') with (cont_text_line c') in HX. congruence.
  - subst X'. inversion H as [|? ? Hc _]; subst. cbn in HX'. change (cont_line c) with (cont_text_line c) in HX'. congruence.
  - injection E as <- E. inversion H; inversion H'; subst. destruct (IH cs' X X') as [-> ->]; auto.
Qed.
Lemma block_head gs stop more : Forall (fun g => cont_text_line (fst g) = false) gs -> ends_block gs stop more -> gs <> [] \/ Forall (fun c => cont_text_line c = false) stop ->
  not_cont (concat (map hgroup_lines gs) ++ stop ++ more).
Proof.
  intros Hg Hs H. destruct gs as [|g gs]; [|inversion Hg; subst; cbn; assumption]. cbn [map concat app].
  destruct Hs as [[-> ->]|(b & -> & Hb & Hc)]; [exact I|]. cbn. destruct H as [H|H]; [congruence|]. inversion H; assumption.
Qed.
Lemma blocks_unique gs : forall gs' stop stop' more more',
  heads_ok gs -> heads_ok gs' -> ends_block gs stop more -> ends_block gs' stop' more' ->
  concat (map hgroup_lines gs) ++ stop ++ more = concat (map hgroup_lines gs') ++ stop' ++ more' -> gs = gs' /\ stop = stop' /\ more = more'.
Proof.
  assert (N : forall g gs stop more X, heads_ok (g :: gs) -> ends_block [] stop more -> stop ++ more <> concat (map hgroup_lines (g :: gs)) ++ X).
  { intros g gs0 stop more X [Hg _] Hs E. inversion Hg as [|? ? (Hb & _) _]; subst. cbn [map concat hgroup_lines app] in E.
    destruct Hs as [[-> ->]|(b & -> & Hb' & _)]; [discriminate|]. cbn [app] in E. injection E as -> _. congruence. }
  assert (T : forall g gs stop more, heads_ok (g :: gs) -> ends_block (g :: gs) stop more -> heads_ok gs /\ ends_block gs stop more /\ not_cont (concat (map hgroup_lines gs) ++ stop ++ more)).
  { intros g gs0 stop more [Hg Ht] Hs. cbn [tl] in Ht. inversion Hg; subst.
    assert (Hs' : ends_block gs0 stop more /\ Forall (fun c => cont_text_line c = false) stop).
    { destruct Hs as [[-> ->]|(b & -> & Hb & [Hc|Hc])]; [split; [left; auto|constructor]|discriminate|split; [right; exists b; auto|constructor; [exact Hc|constructor]]]. }
    destruct Hs' as [Hs1 Hs2]. split; [split; [assumption|destruct gs0; [constructor|inversion Ht; assumption]]|]. split; [exact Hs1|].
    apply block_head; auto. }
  induction gs as [|g gs IH]; intros [|g' gs'] stop stop' more more' H H' Hs Hs' E.
  - cbn [map concat app] in E. destruct Hs as [[-> ->]|(b & -> & _)], Hs' as [[-> ->]|(b' & -> & _)]; cbn [app] in E; try discriminate; [auto|injection E as -> ->; auto].
  - exfalso. exact (N _ _ _ _ _ H' Hs E).
  - exfalso. symmetry in E. exact (N _ _ _ _ _ H Hs' E).
  - destruct (T _ _ _ _ H Hs) as (H1 & Hs1 & Hn1). destruct (T _ _ _ _ H' Hs') as (H1' & Hs1' & Hn1').
    cbn [map concat hgroup_lines app] in E. rewrite <- !app_assoc in E. injection E as El E.
    destruct H as [Hg _]; inversion Hg as [|? ? (_ & _ & Hcs) _]; subst. destruct H' as [Hg' _]; inversion Hg' as [|? ? (_ & _ & Hcs') _]; subst.
    destruct (conts_unique _ _ _ _ Hcs Hcs' Hn1 Hn1' E) as [Ec E']. destruct (IH _ _ _ _ _ H1 H1' Hs1 Hs1' E') as (-> & -> & ->).
    destruct g, g'. cbn [fst snd] in *. subst. auto.
Qed.
Lemma first_version_unique b : forall b' l l' t t', Forall (fun x => version_line x = false) b -> Forall (fun x => version_line x = false) b' ->
  version_line l = true -> version_line l' = true -> b ++ l :: t = b' ++ l' :: t' -> b = b' /\ l = l' /\ t = t'.
Proof.
  induction b as [|x b IH]; intros [|x' b'] l l' t t' H H' Hl Hl' E; cbn [app] in E; injection E as -> E; [subst; auto| | |].
  - inversion H'; congruence.
  - inversion H; congruence.
  - inversion H; inversion H'; subst. destruct (IH b' l l' t t') as (-> & -> & ->); auto.
Qed.
Lemma app_same_length {A} (a : list A) : forall b c d, List.length a = List.length c -> a ++ b = c ++ d -> a = c /\ b = d.
Proof.
  induction a as [|x a IH]; intros b [|y c] d L E; try discriminate L; [auto|]. injection L as L. injection E as -> E.
  destruct (IH b c d L E) as [-> ->]. auto.
Qed.
Theorem C71_reading_is_unique : forall (text : bytes) (r r' : reading) (more more' : list bytes),
  reads_as (lines_of text) r more -> reads_as (lines_of text) r' more' -> r = r' /\ more = more'.
Proof.
  intros text r r' more more' H H'. pose proof (lines_ok text) as Hok.
  destruct H as (E & Hb & _ & Hv & _ & Hg & Hs), H' as (E' & Hb' & _ & Hv' & _ & Hg' & Hs').
  assert (L : rd_before r ++ rd_vline r :: concat (map hgroup_lines (rd_heads r)) ++ rd_stop r ++ more =
              rd_before r' ++ rd_vline r' :: concat (map hgroup_lines (rd_heads r')) ++ rd_stop r' ++ more').
  { rewrite E in E'. unfold rd_lines in E'. rewrite <- !app_assoc in E'. cbn [app] in E'. rewrite <- !app_assoc in E'. exact E'. }
  apply first_version_unique in L as (L1 & L2 & L3); [|assumption|assumption|apply version_line_as; do 5 eexists; exact Hv|apply version_line_as; do 5 eexists; exact Hv'].
  apply blocks_unique in L3 as (L3 & L4 & L5); try assumption.
  assert (H1 : one_line (rd_vline r)).
  { rewrite E in Hok. apply Forall_app in Hok as [Hok _]. unfold rd_lines in Hok. apply Forall_app in Hok as [_ Hok]. inversion Hok as [|? ? [? _] _]; assumption. }
  pose proof (version_as_parts _ _ _ _ _ _ H1 Hv) as P. rewrite L2 in P, H1. rewrite (version_as_parts _ _ _ _ _ _ H1 Hv') in P. injection P as P1 P2 P3 P4.
  assert (P5 : rd_ws r = rd_ws r' /\ rd_tag r = rd_tag r').
  { rewrite P3 in P2. rewrite !app_assoc in P2. apply app_inv_tail in P2.
    destruct Hv as (_ & Ht & _), Hv' as (_ & Ht' & _).
    assert (L5t : List.length (rd_tag r) = List.length (rd_tag r')).
    { unfold lower in Ht, Ht'. apply (f_equal (@List.length N)) in Ht. apply (f_equal (@List.length N)) in Ht'. rewrite map_length in Ht, Ht'. congruence. }
    assert (Lw : List.length (rd_ws r') = List.length (rd_ws r)) by (apply (f_equal (@List.length N)) in P2; rewrite !app_length in P2; lia).
    destruct (app_same_length _ _ _ _ Lw P2). auto. }
  destruct P5 as [P5 P6]. destruct r, r'. cbn in *. subst. auto.
Qed.
(** ** Whole files *)
(** what iterating over a text that stands at byte [pos] of a file gives, record after record:
    the items handed out, and how it ends *)
Definition rd_item (shown : bool) (pos : nat) (r : reading) : item :=
  (told shown (pos + List.length (concat (rd_before r)) + List.length (rd_pfx r)), Some (rd_record r), []).
Inductive file_run (shown : bool) : nat -> bytes -> list item -> outcome unit -> Prop :=
| run_end : forall pos text,                                     (* no further record, and the file ends *)
    Forall (fun l => version_line l = false) (lines_of text) -> List.length (junk_lines (lines_of text)) <= 5 ->
    file_run shown pos text [(told shown (pos + List.length text), None, map ErrIgnored (junk_lines (lines_of text)))] (Ret tt)
| run_junk : forall pos text before line more,                   (* more than five lines of junk *)
    lines_of text = before ++ line :: more -> Forall (fun l => version_line l = false) (before ++ [line]) ->
    List.length (junk_lines before) = 5 -> blank_text line = false ->
    file_run shown pos text
      [(told shown (pos + List.length (concat (before ++ [line]))), None, map ErrIgnored (junk_lines (before ++ [line])) ++ [ErrTooMany])] (Ret tt)
| run_version : forall pos text before vline block pfx ws tag num nl,      (* a version that is not known *)
    lines_of text = before ++ vline :: block -> Forall (fun l => version_line l = false) before -> List.length (junk_lines before) <= 5 ->
    version_as vline pfx ws tag num nl -> ~ In num known_numbers ->
    file_run shown pos text [] (Raise ETypeError)
| run_hang : forall pos text before vline block pfx ws tag num nl,         (* a header line without a colon or a line end *)
    lines_of text = before ++ vline :: block -> Forall (fun l => version_line l = false) before -> List.length (junk_lines before) <= 5 ->
    version_as vline pfx ws tag num nl -> In num known_numbers -> stuck false block ->
    file_run shown pos text [] Diverge
| run_short : forall pos text r more,                            (* a record whose payload is cut short *)
    reads_as (lines_of text) r more -> (Z.of_nat (List.length (concat more)) < declared_length (rd_headers r) 0)%Z ->
    file_run shown pos text [rd_item shown pos r] (Raise E_short)
| run_record : forall pos text r more body after items o,        (* a record, its payload, and what follows *)
    reads_as (lines_of text) r more -> concat more = body ++ after ->
    Z.of_nat (List.length body) = Z.max 0 (declared_length (rd_headers r) 0) ->
    file_run shown (pos + List.length (concat (rd_lines r)) + List.length body) after items o ->
    file_run shown pos text (rd_item shown pos r :: items) o.

Lemma read_record_none st b d : s_eoc st = Some d -> (d <= 0)%Z -> read_record st b = read_record (fresh st) b.
Proof.
  intros He Hd. unfold read_record at 1. rewrite He. unfold skip_to_eoc, file_fuel. cbn [skip_loop]. rewrite He.
  assert (E : (0 <? d)%Z = false) by lia. rewrite E. reflexivity.
Qed.
Lemma answer_end gz st p text b : ready_on gz st p text -> Forall (fun l => version_line l = false) (lines_of text) -> List.length (junk_lines (lines_of text)) <= 5 ->
  fst (read_record st b) = Ret (told (b && negb gz) (p + List.length text), None, map ErrIgnored (junk_lines (lines_of text))).
Proof.
  intros Hrd; pose proof Hrd as (Hk & Hp & He & Hpos & Hr); intros Hv H5. assert (Hk' : s_kind st <> SGzipFile) by (rewrite Hk; destruct gz; discriminate).
  pose proof (read_record_any st b He Hp Hk') as H. cbn zeta in H. unfold rest in H. rewrite Hr in H.
  assert (W : wparse (lines_of text) = WNone (map ErrIgnored (junk_lines (lines_of text))) (List.length text)).
  { unfold wparse. rewrite (vfind_none (lines_of text) [] (no_version_parts _ (lines_ok text) Hv)); [rewrite concat_lines; reflexivity|].
    unfold junk_errors. rewrite map_length. exact H5. }
  rewrite W in H. rewrite H. cbn [fst]. rewrite (told_offset _ _ _ _ _ _ Hrd). reflexivity.
Qed.
Lemma answer_junk gz st p text b before l t : ready_on gz st p text -> lines_of text = before ++ l :: t ->
  Forall (fun l => version_line l = false) (before ++ [l]) -> List.length (junk_lines before) = 5 -> blank_text l = false ->
  fst (read_record st b) = Ret (told (b && negb gz) (p + List.length (concat (before ++ [l]))), None, map ErrIgnored (junk_lines (before ++ [l])) ++ [ErrTooMany]).
Proof.
  intros Hrd; pose proof Hrd as (Hk & Hp & He & Hpos & Hr); intros El Hb1 Hb2 Hl. assert (Hk' : s_kind st <> SGzipFile) by (rewrite Hk; destruct gz; discriminate).
  pose proof (read_record_any st b He Hp Hk') as H. cbn zeta in H. unfold rest in H. rewrite Hr in H.
  pose proof (lines_ok text) as Hok.
  assert (Hok2 : ok_lines (before ++ [l])).
  { rewrite El in Hok. apply Forall_app in Hok as [Hok1 Hok2]. apply Forall_app. split; [exact Hok1|]. inversion Hok2; constructor; [assumption|constructor]. }
  pose proof (no_version_parts _ Hok2 Hb1) as Hp1. apply Forall_app in Hp1 as [Hp1 Hp2]. pose proof (Forall_inv Hp2) as Hp2'. cbn beta in Hp2'.
  assert (W : wparse (lines_of text) = WNone (map ErrIgnored (junk_lines (before ++ [l])) ++ [ErrTooMany]) (List.length (concat (before ++ [l])))).
  { rewrite El. unfold wparse. rewrite (vfind_give_up before [] l t Hp1); [reflexivity| |exact Hp2'|exact Hl]. cbn [plus List.length] in *.
    unfold junk_errors. rewrite map_length. exact Hb2. }
  rewrite W in H. rewrite H. cbn [fst]. rewrite (told_offset _ _ _ _ _ _ Hrd). reflexivity.
Qed.
Lemma answer_hang gz st p text b before l t pfx ws tag num nl : ready_on gz st p text -> lines_of text = before ++ l :: t ->
  Forall (fun l => version_line l = false) before -> List.length (junk_lines before) <= 5 ->
  version_as l pfx ws tag num nl -> In num known_numbers -> stuck false t ->
  fst (read_record st b) = Diverge.
Proof.
  intros Hrd; pose proof Hrd as (Hk & Hp & He & Hpos & Hr); intros El Hb1 Hb2 Has Hn Hs. assert (Hk' : s_kind st <> SGzipFile) by (rewrite Hk; destruct gz; discriminate).
  pose proof (read_record_any st b He Hp Hk') as H. cbn zeta in H. unfold rest in H. rewrite Hr in H.
  assert (W : wparse (lines_of text) = WHang) by (apply (wparse_hang _ (lines_ok text)); exists before, l, t, pfx, ws, tag, num, nl; split; [exact El|]; split; [split; assumption|auto]).
  rewrite W in H. exact H.
Qed.
Lemma answer_version gz st p text b before l t pfx ws tag num nl : ready_on gz st p text -> lines_of text = before ++ l :: t ->
  Forall (fun l => version_line l = false) before -> List.length (junk_lines before) <= 5 ->
  version_as l pfx ws tag num nl -> ~ In num known_numbers ->
  fst (read_record st b) = Raise ETypeError.
Proof.
  intros Hrd; pose proof Hrd as (Hk & Hp & He & Hpos & Hr); intros El Hb1 Hb2 Has Hn. assert (Hk' : s_kind st <> SGzipFile) by (rewrite Hk; destruct gz; discriminate).
  pose proof (read_record_any st b He Hp Hk') as H. cbn zeta in H. unfold rest in H. rewrite Hr in H. pose proof (lines_ok text) as Hok.
  assert (Hl1 : one_line l). { rewrite El in Hok. apply Forall_app in Hok as [_ Hok]. inversion Hok as [|? ? [? _] _]; assumption. }
  assert (Hok1 : ok_lines before) by (rewrite El in Hok; apply Forall_app in Hok as [Hok _]; exact Hok).
  assert (Hb : before_version before) by (split; assumption). apply (before_version_parts before Hok1) in Hb as [Hp1 Hp2].
  assert (W : wparse (lines_of text) = WBadVersion num).
  { rewrite El. unfold wparse. rewrite (vfind_hit before [] l t _ _ _ _ Hp1 Hp2 (version_as_parts _ _ _ _ _ _ Hl1 Has)).
    destruct (in_list num KNOWN_VERSIONS) eqn:Ek; [apply known_in in Ek; contradiction|reflexivity]. }
  rewrite W in H. exact H.
Qed.
Lemma reads_as_uses ls r more : reads_as ls r more -> List.length (concat more) < List.length (concat ls).
Proof.
  intros (-> & _ & _ & Hv & _). rewrite concat_app, app_length. unfold rd_lines. rewrite concat_app. cbn [concat]. rewrite !app_length.
  destruct Hv as (-> & Ht & _). apply (f_equal (@List.length N)) in Ht. unfold lower in Ht. rewrite map_length in Ht. rewrite !app_length.
  change (List.length (B "warc/")) with 5 in Ht. lia.
Qed.
(** the stream behind a record's head reads on like one between records *)
Lemma behind_record (gz : bool) st b pos d body after : s_kind st = (if gz then SGzipRecord else SPlain) -> s_parser st = PWarc -> s_eoc st = Some d -> f_pos (s_fh st) = pos ->
  f_rest (s_fh st) = body ++ after -> Z.of_nat (List.length body) = Z.max 0 d ->
  exists st0, read_record st b = read_record st0 b /\ ready_on gz st0 (pos + List.length body) after.
Proof.
  intros Hk Hp He Hpos Hr Hd. destruct (Z_le_gt_dec d 0) as [L|L].
  - assert (List.length body = 0) as Hb by lia. destruct body; [|discriminate]. exists (fresh st). split; [apply (read_record_none _ _ d); assumption|].
    cbn [List.length]. rewrite Nat.add_0_r. repeat split; assumption.
  - assert (He' : s_eoc st = Some (Z.of_nat (List.length body))) by (rewrite He; f_equal; lia).
    exists (fresh (adv st (List.length body))). split; [exact (read_record_skip _ _ _ _ He' Hr)|].
    repeat split; [exact Hk|exact Hp|cbn; rewrite Hpos; reflexivity|]. change (f_rest (s_fh (fresh ?s))) with (rest s). exact (rest_adv_app _ _ _ Hr).
Qed.
Lemma run_loop gz b pos text items o : file_run (b && negb gz) pos text items o -> forall fuel st st0 acc,
  read_record st b = read_record st0 b -> ready_on gz st0 pos text -> List.length text < fuel ->
  exists st', read_loop fuel None b collect acc st = (o, acc ++ items, st').
Proof.
  induction 1 as [pos text Hv H5|pos text before l t El Hb1 Hb2 Hl|pos text before l t pfx ws tag num nl El Hb1 Hb2 Has Hn
    |pos text before l t pfx ws tag num nl El Hb1 Hb2 Has Hn Hs|pos text r more Hra Hlt|pos text r more body after items o Hra Em Hd Hrun IH];
    intros fuel st st0 acc Hst Hrd Hf; (destruct fuel as [|fuel]; [lia|]); cbn [read_loop]; rewrite Hst.
  - pose proof (answer_end gz _ _ _ b Hrd Hv H5) as E. destruct (read_record st0 b) as [a st1]. cbn [fst] in E. subst a. cbn [collect snd fst]. eauto.
  - pose proof (answer_junk gz _ _ _ b _ _ _ Hrd El Hb1 Hb2 Hl) as E. destruct (read_record st0 b) as [a st1]. cbn [fst] in E. subst a. cbn [collect snd fst]. eauto.
  - pose proof (answer_version gz _ _ _ b _ _ _ _ _ _ _ _ Hrd El Hb1 Hb2 Has Hn) as E. destruct (read_record st0 b) as [a st1]. cbn [fst] in E. subst a. rewrite app_nil_r. eauto.
  - pose proof (answer_hang gz _ _ _ b _ _ _ _ _ _ _ _ Hrd El Hb1 Hb2 Has Hn Hs) as E. destruct (read_record st0 b) as [a st1]. cbn [fst] in E. subst a. rewrite app_nil_r. eauto.
  - destruct (C71_reading_gives_record gz st0 pos text b r more Hrd Hra) as (st1 & E & He & Hr & Hpos & Hk & Hp & _). rewrite (proj1 Hrd) in Hk. rewrite E. cbn [collect snd fst].
    pose proof (reads_as_uses _ _ _ Hra) as Hu. rewrite concat_lines in Hu. destruct fuel as [|fuel]; [lia|]. cbn [read_loop].
    destruct (read_record_short st1 b (Z.to_nat (declared_length (rd_headers r) 0))) as [st2 ->].
    + rewrite He. f_equal. lia.
    + change (rest st1) with (f_rest (s_fh st1)). rewrite Hr. lia.
    + eauto.
  - destruct (C71_reading_gives_record gz st0 pos text b r more Hrd Hra) as (st1 & E & He & Hr & Hpos & Hk & Hp & _). rewrite (proj1 Hrd) in Hk. rewrite E. cbn [collect snd fst].
    pose proof (reads_as_uses _ _ _ Hra) as Hu. rewrite concat_lines, Em, app_length in Hu. rewrite Em in Hr.
    destruct (behind_record gz st1 b _ _ body after Hk Hp He Hpos Hr Hd) as (st2 & E2 & Hrd2).
    destruct (IH fuel st1 st2 (acc ++ [rd_item (b && negb gz) pos r]) E2 Hrd2 ltac:(lia)) as [st' E']. exists st'. rewrite <- app_assoc in E'. exact E'.
Qed.
Lemma run_total b : forall n pos text, List.length text <= n -> exists items o, file_run b pos text items o.
Proof.
  induction n as [n IH] using lt_wf_ind. intros pos text Hn.
  destruct (version_search (lines_of text) 0 ltac:(lia)) as [(before & l & t & El & Hb1 & Hb2 & Hl)|[[Hv H5]|(before & l & t & El & Hb1 & Hb2 & Hl)]];
    [|do 2 eexists; apply run_end; assumption|do 2 eexists; eapply run_junk; eassumption].
  apply version_line_as in Hl as (pfx & ws & tag & num & nl & Has).
  destruct (in_dec (list_eq_dec N.eq_dec) num known_numbers) as [Hnum|Hnum]; [|do 2 eexists; eapply run_version; eassumption].
  destruct (block_split t) as [Hs|(gs & stop & more & -> & Hg & Hs)]; [do 2 eexists; eapply run_hang; eassumption|].
  assert (Hra : reads_as (lines_of text) (mkreading before pfx ws tag num nl gs stop) more).
  { pose proof Has as (Ev & _). split; [|split; [exact Hb1|split; [exact Hb2|split; [|split; [exact Hnum|split; [exact Hg|exact Hs]]]]]].
    - rewrite El. unfold rd_lines, rd_vline. cbn [rd_before rd_pfx rd_ws rd_tag rd_num rd_nl rd_heads rd_stop]. rewrite <- Ev, <- app_assoc. cbn [app]. rewrite <- app_assoc. reflexivity.
    - unfold rd_vline. cbn [rd_pfx rd_ws rd_tag rd_num rd_nl]. rewrite <- Ev. exact Has. }
  set (r := mkreading before pfx ws tag num nl gs stop) in *. set (d := declared_length (rd_headers r) 0).
  destruct (Z_lt_ge_dec (Z.of_nat (List.length (concat more))) d) as [L|L]; [do 2 eexists; eapply run_short; eassumption|].
  set (k := Z.to_nat (Z.max 0 d)). pose proof (reads_as_uses _ _ _ Hra) as Hu. rewrite concat_lines in Hu.
  destruct (IH (List.length (skipn k (concat more))) ltac:(rewrite skipn_length; lia) (pos + List.length (concat (rd_lines r)) + List.length (firstn k (concat more))) (skipn k (concat more)) (le_n _))
    as (items & o & Hrun).
  exists (rd_item b pos r :: items), o. eapply run_record; [exact Hra|symmetry; apply firstn_skipn| |exact Hrun].
  rewrite firstn_length. fold d. lia.
Qed.
(** what the iteration gives, for every text; [list_records] collects the items of read_records() *)
Theorem C71_whole_file : forall (gz : bool) (st : stream) (pos : nat) (text : bytes) (offsets : bool) (items : list item) (o : outcome unit), ready_on gz st pos text ->
  (file_run (offsets && negb gz) pos text items o <-> exists st', list_records st None offsets = (o, items, st')).
Proof.
  intros gz st p text b items o Hst. unfold list_records, for_read_records.
  assert (Hfu : List.length text < file_fuel (s_fh st)). { pose proof (rest_fuel st) as H. destruct Hst as (_ & _ & _ & _ & Hr). unfold rest in H. rewrite Hr in H. exact H. }
  split.
  - intro H. destruct (run_loop gz _ _ _ _ _ H (file_fuel (s_fh st)) st st [] eq_refl Hst Hfu) as [st' E]. exists st'. exact E.
  - intros [st' E]. destruct (run_total (b && negb gz) (List.length text) p text (le_n _)) as (items' & o' & H).
    destruct (run_loop gz _ _ _ _ _ H (file_fuel (s_fh st)) st st [] eq_refl Hst Hfu) as [st'' E']. cbn [app] in E'. rewrite E in E'. injection E' as <- <- _. exact H.
Qed.
Corollary C71_one_outcome : forall (pos : nat) (text : bytes) (shown : bool),
  exists items o, file_run shown pos text items o /\ forall items' o', file_run shown pos text items' o' -> items' = items /\ o' = o.
Proof.
  intros p text b. destruct (run_total b (List.length text) p text (le_n _)) as (items & o & H). exists items, o. split; [exact H|]. intros items' o' H'.
  set (st := mkstream SPlain (mkfile (repeat 0%N p ++ text) p true) None PWarc).
  assert (Hst : ready_on false st p text). { repeat split. unfold f_rest. cbn. rewrite skipn_app, repeat_length, Nat.sub_diag, skipn_all2 by (rewrite repeat_length; lia). reflexivity. }
  rewrite <- (andb_true_r b) in H, H'. apply (C71_whole_file false st p text b items o Hst) in H as [s E].
  apply (C71_whole_file false st p text b items' o' Hst) in H' as [s' E']. rewrite E in E'. injection E' as -> -> _. auto.
Qed.

(** ** C48: exactly the files warcvalid accepts *)
(** a valid file: records without a remark and with their whole payload, one behind the other,
    and then nothing but blank lines *)
Inductive valid_text : bytes -> Prop :=
| valid_end : forall text, Forall (fun l => blank_text l = true /\ version_line l = false) (lines_of text) -> valid_text text
| valid_more : forall text r more body after, reads_as (lines_of text) r more -> rd_errors r = [] ->
    concat more = body ++ after -> Z.of_nat (List.length body) = Z.max 0 (declared_length (rd_headers r) 0) ->
    valid_text after -> valid_text text.
Lemma no_junk ls : junk_lines ls = [] <-> Forall (fun l => blank_text l = true) ls.
Proof.
  unfold junk_lines. induction ls as [|l t IH]; [split; [constructor|reflexivity]|]. cbn [filter]. destruct (blank_text l) eqn:E; cbn [negb].
  - rewrite IH. split; [constructor; assumption|intro H; inversion H; assumption].
  - split; [discriminate|intro H; inversion H; congruence].
Qed.
Lemma valid_run b pos text items o : file_run b pos text items o -> (valid_text text <-> o = Ret tt /\ Forall clean_item items).
Proof.
  intro H. split.
  - intro Hv. revert pos items o H. induction Hv as [text Hb|text r more body after Hra He Em Hd Hv IH]; intros pos items o H.
    + assert (E : file_run b pos text [(told b (pos + List.length text), None, [])] (Ret tt)).
      { replace (@nil perr) with (map ErrIgnored (junk_lines (lines_of text))); [apply run_end|].
        - eapply Forall_impl; [|exact Hb]. intros ? []; assumption.
        - replace (junk_lines (lines_of text)) with (@nil bytes); [cbn; lia|]. symmetry. apply no_junk. eapply Forall_impl; [|exact Hb]. intros ? []; assumption.
        - replace (junk_lines (lines_of text)) with (@nil bytes); [reflexivity|]. symmetry. apply no_junk. eapply Forall_impl; [|exact Hb]. intros ? []; assumption. }
      destruct (C71_one_outcome pos text b) as (i0 & o0 & _ & U). destruct (U _ _ H) as [-> ->]. destruct (U _ _ E) as [<- <-].
      split; [reflexivity|]. constructor; [split; [reflexivity|discriminate]|constructor].
    + destruct (run_total b (List.length after) (pos + List.length (concat (rd_lines r)) + List.length body) after (le_n _)) as (items1 & o1 & H1).
      pose proof (run_record b pos text r more body after items1 o1 Hra Em Hd H1) as E.
      destruct (C71_one_outcome pos text b) as (i0 & o0 & _ & U). destruct (U _ _ H) as [-> ->]. destruct (U _ _ E) as [<- <-].
      destruct (IH _ _ _ H1) as [-> Hc]. split; [reflexivity|]. constructor; [|exact Hc]. split; [reflexivity|]. intros x Hx. injection Hx as <-. exact He.
  - induction H as [pos text Hv H5|pos text before l t El Hb1 Hb2 Hl|pos text before l t pfx ws tag num nl El Hb1 Hb2 Has Hn
    |pos text before l t pfx ws tag num nl El Hb1 Hb2 Has Hn Hs|pos text r more Hra Hlt|pos text r more body after items o Hra Em Hd Hrun IH]; intros [Ho Hc]; try discriminate.
    + apply valid_end. apply Forall_inv in Hc as [He _]. apply map_eq_nil in He. apply no_junk in He.
      rewrite Forall_forall in *. intros l Hl. auto.
    + apply Forall_inv in Hc as [He _]. apply app_eq_nil in He as [_ He]. discriminate.
    + inversion Hc as [|? ? H1 H2]; subst. unfold clean_item, rd_item in H1. destruct H1 as [_ H1]. eapply valid_more; [exact Hra| |exact Em|exact Hd|apply IH; auto]. exact (H1 _ eq_refl).
Qed.
Theorem C48_accepts_exactly : forall gunzip (files : list (input * bytes)), Forall (fun f => file_holds gunzip (fst f) (snd f)) files ->
  (warcvalid gunzip (map fst files) = Ret 0%Z <-> Forall (fun f => valid_text (snd f)) files).
Proof.
  intros gunzip files Hf. rewrite C48_zero_iff_clean. rewrite Forall_map.
  assert (E : forall f, In f files -> (clean_file gunzip (fst f) <-> valid_text (snd f))).
  { rewrite Forall_forall in Hf. intros [i text] Hi. specialize (Hf _ Hi). cbn [fst snd] in *.
    assert (Eo : exists gz st, open_input gunzip i = Ret st /\ ready_on gz st 0 text).
    { destruct Hf as [Hf|Hf]; [exists false; rewrite (open_plain _ _ _ Hf)|exists true; rewrite (open_gz _ _ _ Hf)]; eexists; split; try reflexivity; repeat split. }
    destruct Eo as (gz & st0 & Eo & Hst).
    destruct (run_total (true && negb gz) (List.length text) 0 text (le_n _)) as (items & o & H). rewrite (valid_run _ _ _ _ _ H).
    apply (C71_whole_file gz _ 0 text true items o Hst) in H as [st' E]. split.
    - intros (st & items' & st'' & Eo' & E' & Hc). rewrite Eo in Eo'. injection Eo' as <-. rewrite E in E'. injection E' as -> -> _. auto.
    - intros [-> Hc]. do 3 eexists. split; [exact Eo|]. split; [exact E|exact Hc]. }
  rewrite !Forall_forall. split; intros H f Hi; apply (E f Hi), H, Hi.
Qed.
(** a file on which warcvalid never comes back: such records, and then one that makes the reader hang *)
Inductive hanging_text : bytes -> Prop :=
| hang_here : forall text before vline block pfx ws tag num nl,
    lines_of text = before ++ vline :: block -> Forall (fun l => version_line l = false) before -> List.length (junk_lines before) <= 5 ->
    version_as vline pfx ws tag num nl -> In num known_numbers -> stuck false block -> hanging_text text
| hang_later : forall text r more body after, reads_as (lines_of text) r more -> rd_errors r = [] ->
    concat more = body ++ after -> Z.of_nat (List.length body) = Z.max 0 (declared_length (rd_headers r) 0) ->
    hanging_text after -> hanging_text text.
Lemma hanging_run b pos text items o : file_run b pos text items o -> (hanging_text text <-> o = Diverge /\ Forall clean_item items).
Proof.
  intro H. split.
  - intro Hv. revert pos items o H. induction Hv as [text before l t pfx ws tag num nl El Hb1 Hb2 Has Hn Hs|text r more body after Hra He Em Hd Hv IH]; intros pos items o H.
    + pose proof (run_hang b pos text before l t pfx ws tag num nl El Hb1 Hb2 Has Hn Hs) as E.
      destruct (C71_one_outcome pos text b) as (i0 & o0 & _ & U). destruct (U _ _ H) as [-> ->]. destruct (U _ _ E) as [<- <-]. split; [reflexivity|constructor].
    + destruct (run_total b (List.length after) (pos + List.length (concat (rd_lines r)) + List.length body) after (le_n _)) as (items1 & o1 & H1).
      pose proof (run_record b pos text r more body after items1 o1 Hra Em Hd H1) as E.
      destruct (C71_one_outcome pos text b) as (i0 & o0 & _ & U). destruct (U _ _ H) as [-> ->]. destruct (U _ _ E) as [<- <-].
      destruct (IH _ _ _ H1) as [-> Hc]. split; [reflexivity|]. constructor; [|exact Hc]. split; [reflexivity|]. intros x Hx. injection Hx as <-. exact He.
  - induction H as [pos text Hv H5|pos text before l t El Hb1 Hb2 Hl|pos text before l t pfx ws tag num nl El Hb1 Hb2 Has Hn
    |pos text before l t pfx ws tag num nl El Hb1 Hb2 Has Hn Hs|pos text r more Hra Hlt|pos text r more body after items o Hra Em Hd Hrun IH]; intros [Ho Hc]; try discriminate.
    + eapply hang_here; eassumption.
    + inversion Hc as [|? ? H1 H2]; subst. unfold clean_item, rd_item in H1. destruct H1 as [_ H1]. eapply hang_later; [exact Hra| |exact Em|exact Hd|apply IH; auto]. exact (H1 _ eq_refl).
Qed.
Lemma status_loop fuel : forall c st acc, exists o k st', read_loop fuel None true collect acc st = (o, acc ++ k, st') /\
  (Forall clean_item k /\ read_loop fuel None true valid_body c st = (o, c, st') \/
   ~ Forall clean_item k /\ exists o' st'', read_loop fuel None true valid_body c st = (o', false, st'') /\ o' <> Diverge).
Proof.
  induction fuel as [|fuel IH]; intros c st acc; cbn [read_loop].
  { exists Diverge, [], st. rewrite app_nil_r. split; [reflexivity|]. left. split; [constructor|reflexivity]. }
  destruct (read_record st true) as [[it|e|] st1].
  - unfold collect at 1. destruct (valid_unclean c st1 it) as [Hc|(o1 & E & Hne)].
    + rewrite (valid_clean _ _ _ Hc). destruct (snd (fst it)).
      * destruct (IH c st1 (acc ++ [it])) as (o & k & st' & E & Hk). exists o, (it :: k), st'. rewrite E, <- app_assoc. split; [reflexivity|].
        destruct Hk as [[Hk1 Hk2]|[Hk1 Hk2]]; [left; split; [constructor; assumption|exact Hk2]|right; split; [intro X; inversion X; contradiction|exact Hk2]].
      * exists (Ret tt), [it], st1. split; [reflexivity|]. left. split; [constructor; [exact Hc|constructor]|reflexivity].
    + assert (Hn : ~ clean_item it). { intro X. rewrite (valid_clean _ _ _ X) in E. injection E as <- _. congruence. }
      assert (Ho1 : o1 <> Diverge). { destruct it as [[off [r|]] [|? ?]]; cbn [valid_body] in E; [destruct (r_errors r)| | |]; try destruct off; cbn [complain] in E; inversion E; subst; discriminate. }
      rewrite E. destruct (snd (fst it)) eqn:Er.
      * destruct (IH c st1 (acc ++ [it])) as (o & k & st' & E' & _). exists o, (it :: k), st'. rewrite E', <- app_assoc. split; [reflexivity|].
        right. split; [intro X; inversion X; contradiction|]. destruct o1 as [[]|e|]; [contradiction| | |contradiction]; do 2 eexists; (split; [reflexivity|discriminate]).
      * exists (Ret tt), [it], st1. split; [reflexivity|]. right. split; [intro X; inversion X; contradiction|].
        destruct o1 as [[]|e|]; [contradiction| | |contradiction]; do 2 eexists; (split; [reflexivity|discriminate]).
  - exists (Raise e), [], st1. rewrite app_nil_r. split; [reflexivity|]. left. split; [constructor|reflexivity].
  - exists Diverge, [], st1. rewrite app_nil_r. split; [reflexivity|]. left. split; [constructor|reflexivity].
Qed.
Theorem C48_every_file : forall gunzip (i : input) (text : bytes), file_holds gunzip i text ->
  (warcvalid gunzip [i] = Ret 0%Z <-> valid_text text) /\
  (warcvalid gunzip [i] = Diverge <-> hanging_text text) /\
  (warcvalid gunzip [i] = Ret (-1)%Z <-> ~ valid_text text /\ ~ hanging_text text).
Proof.
  intros gunzip i text Hi.
  assert (Eo : exists gz st, open_input gunzip i = Ret st /\ ready_on gz st 0 text).
  { destruct Hi as [Hf|Hf]; [exists false; rewrite (open_plain _ _ _ Hf)|exists true; rewrite (open_gz _ _ _ Hf)]; eexists; split; try reflexivity; repeat split. }
  destruct Eo as (gz & st & Eo & Hst). unfold warcvalid. cbn [over_files]. rewrite Eo. unfold valid_file, for_read_records.
  destruct (status_loop (file_fuel (s_fh st)) true st []) as (o & k & st' & E & Hk). cbn [app] in E.
  assert (Hrun : file_run (true && negb gz) 0 text k o). { apply (C71_whole_file gz st 0 text true k o Hst). exists st'. exact E. }
  rewrite (valid_run _ _ _ _ _ Hrun), (hanging_run _ _ _ _ _ Hrun).
  destruct Hk as [[Hc Ev]|[Hc (o' & st'' & Ev & Ho')]]; rewrite Ev.
  - destruct o as [[]|e|]; (split; [split|split; split]); try discriminate; try tauto; try (intros [X _]; discriminate); intros _; split; intros [X _]; discriminate.
  - destruct o' as [[]|e|]; [| |contradiction]; (split; [split|split; split]); try discriminate; try tauto.
Qed.
(** in particular a file with some text but without a WARC version line, such as an ARC file *)
Theorem C48_other_files_rejected : forall gunzip (i : input) (text : bytes), file_holds gunzip i text ->
  Forall (fun l => version_line l = false) (lines_of text) -> (exists l, In l (lines_of text) /\ blank_text l = false) ->
  warcvalid gunzip [i] = Ret (-1)%Z.
Proof.
  intros gunzip i text Hi Hv (l & Hl & Hb). destruct (C48_every_file gunzip i text Hi) as (_ & _ & H). apply H.
  assert (Hno : forall before vline block pfx ws tag num nl, lines_of text = before ++ vline :: block -> version_as vline pfx ws tag num nl -> False).
  { intros before vline block pfx ws tag num nl E Ha. rewrite E in Hv. apply Forall_app in Hv as [_ Hv]. apply Forall_inv in Hv.
    assert (X : version_line vline = true) by (apply version_line_as; do 5 eexists; exact Ha). congruence. }
  assert (Hnr : forall r more, ~ reads_as (lines_of text) r more).
  { intros r more (E & _ & _ & Ha & _). unfold rd_lines in E. rewrite <- app_assoc in E. cbn [app] in E. eapply Hno; eassumption. }
  split; intro X; inversion X; subst; try (eapply Hnr; eassumption); try (eapply Hno; eassumption).
  rewrite Forall_forall in *. destruct (H0 l Hl). congruence.
Qed.

(** ** Concrete cases *)
(** junk and a prefix before the version, a bare line feed, a folded header, Content-Length *)
Definition reading_sample : reading :=
  mkreading [CRLF; B "junk" ++ [LF]] (B "xx") (B " ") (B "warc/") (B "0.18") [LF]
    [(B "WARC-Type: a" ++ CRLF, [B "  b" ++ [LF]]); (B "content-length:3" ++ CRLF, [])] [CRLF].
Definition reading_text : bytes := concat (rd_lines reading_sample) ++ B "abc" ++ CRLF ++ CRLF.
Example C71_reading_case : reads_as (lines_of reading_text) reading_sample [B "abc" ++ CRLF; CRLF] /\
  ready_on false (new_stream SPlain (mkfile reading_text 0 true) PWarc) 0 reading_text /\
  rd_headers reading_sample = [(B "WARC-Type", B "a b"); (B "content-length", B "3")] /\
  rd_errors reading_sample = [ErrIgnored (B "junk" ++ [LF]); ErrVersionNl [LF]; ErrPrefix (B "xx"); ErrFollowNl (B "  b" ++ [LF]) [LF]] /\
  declared_length (rd_headers reading_sample) 0 = 3%Z.
Proof.
  split; [|split; [repeat split|split; [vm_compute; reflexivity|split; vm_compute; reflexivity]]].
  split; [vm_compute; reflexivity|]. split; [repeat constructor|]. split; [vm_compute; lia|].
  split.
  { split; [reflexivity|]. split; [vm_compute; reflexivity|]. split; [vm_compute; reflexivity|]. split; [vm_compute; reflexivity|].
    split; [|right; right; split; [reflexivity|]]; cbn [reading_sample rd_pfx rd_num].
    - intros t c E. destruct t as [|a [|b [|? ?]]]; inversion E; subst. reflexivity.
    - intros t E. assert (X : last (B "0.18") 0%N = CR) by (rewrite E; apply last_last). vm_compute in X. discriminate. }
  split; [right; right; left; reflexivity|].
  split; [split; repeat constructor|]. right. exists CRLF. split; [reflexivity|]. split; [reflexivity|]. right. reflexivity.
Qed.
(** its file: one record with remarks, and the end *)
Example C71_run_case : exists items, file_run true 0 reading_text items (Ret tt) /\ map (fun it : item => fst (fst it)) items = [Some 9; Some (List.length reading_text)].
Proof.
  eexists. split.
  - eapply run_record; [exact (proj1 C71_reading_case)|instantiate (1 := CRLF ++ CRLF); instantiate (1 := B "abc"); reflexivity|vm_compute; reflexivity|].
    apply run_end; [vm_compute; repeat constructor|vm_compute; lia].
  - vm_compute. reflexivity.
Qed.
(** a file without a remark is valid; a negative Content-Length counts as none *)
Definition valid_sample : reading := mkreading [] [] [] (B "WARC/") (B "1.0") CRLF [(B "Content-Length: -5" ++ CRLF, [])] [CRLF].
Example C48_valid_case : valid_text (concat (rd_lines valid_sample) ++ CRLF) /\
  warcvalid (fun _ => []) [mkin (B "a.warc") (concat (rd_lines valid_sample) ++ CRLF)] = Ret 0%Z.
Proof.
  split; [|vm_compute; reflexivity].
  apply (valid_more _ valid_sample [CRLF] [] CRLF); [|reflexivity|reflexivity|vm_compute; reflexivity|apply valid_end; vm_compute; repeat constructor].
  split; [vm_compute; reflexivity|]. split; [constructor|]. split; [vm_compute; lia|]. split.
  { split; [reflexivity|]. split; [vm_compute; reflexivity|]. split; [vm_compute; reflexivity|]. split; [vm_compute; reflexivity|].
    split; [intros [|? ?] c E; discriminate|left; reflexivity]. }
  split; [left; reflexivity|]. split; [split; repeat constructor|]. right. exists CRLF. split; [reflexivity|]. split; [reflexivity|]. right. reflexivity.
Qed.
(** and the other two answers *)
Example C48_other_answers :
  hanging_text (B "WARC/1.0" ++ CRLF ++ B "no colon" ++ CRLF) /\
  warcvalid (fun _ => []) [mkin (B "a.warc") (B "WARC/1.0" ++ CRLF ++ B "no colon" ++ CRLF)] = Diverge /\
  warcvalid (fun _ => []) [mkin (B "a.arc") (B "filedesc://a 1.2.3.4 20000101000000 text/plain 3" ++ [LF] ++ B "1 0" ++ [LF])] = Ret (-1)%Z.
Proof.
  split; [|split; vm_compute; reflexivity].
  apply (hang_here _ [] (B "WARC/1.0" ++ CRLF) [B "no colon" ++ CRLF] [] [] (B "WARC/") (B "1.0") CRLF); [vm_compute; reflexivity|constructor|vm_compute; lia| |left; reflexivity|vm_compute; exact I].
  split; [reflexivity|]. split; [vm_compute; reflexivity|]. split; [vm_compute; reflexivity|]. split; [vm_compute; reflexivity|].
  split; [intros [|? ?] c E; discriminate|left; reflexivity].
Qed.
