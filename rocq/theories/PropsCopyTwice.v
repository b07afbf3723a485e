(** C75: copying a copy - warc2warc's output is a fixed point after at most two passes. *)
From Verif Require Export PropsAnyFile.
From Coq Require Import String List Lia ZArith.
Open Scope list_scope.

(** ** Specification *)
(** a text that is a sequence of complete records: blank lines and up to five junk lines before a record, in any layout
    (C71's reading), and blank lines at the end; a last record may declare length -1 if there is nothing behind its head *)
Inductive text_records : bytes -> list wrec -> Prop :=
| records_end : forall text, Forall (fun l => version_line l = false) (lines_of text) -> junk_lines (lines_of text) = [] -> text_records text []
| records_more : forall text r more body after l, reads_as (lines_of text) r more -> due r = Z.of_nat (List.length body) ->
    concat more = body ++ after -> text_records after l -> text_records text (rd_wrec r body :: l)
| records_last : forall text r, reads_as (lines_of text) r [] -> due r = (-1)%Z -> text_records text [rd_wrec r []].
(** the header values without white space around them *)
Definition neat (w : wrec) : wrec := mkw (w_version w) (map (fun h => (fst h, strip (snd h))) (w_headers w)) (w_body w).
Definition declares (w : wrec) : Z := declared_length (w_headers w) 0.

(** ** Lemmas *)
Lemma space_no_digit c : is_space c = true -> c <> 95%N /\ digit_val 10 c = None.
Proof.
  intro H. assert (E : (c = 32 \/ c = 9 \/ c = 10 \/ c = 11 \/ c = 12 \/ c = 13)%N).
  { unfold is_space in H. apply orb_true_iff in H as [H|H]; [apply N.eqb_eq in H; lia|]. apply andb_true_iff in H as [H1 H2]. apply N.leb_le in H1. apply N.leb_le in H2. lia. }
  repeat (destruct E as [-> | E]; [split; [discriminate|reflexivity]|]). subst c. split; [discriminate|reflexivity].
Qed.
Lemma digits_tail c t : is_space c = true -> forall acc us, int_digits 10 acc us (t ++ [c]) = match int_digits 10 acc us t with Some (v, rest) => Some (v, rest ++ [c]) | None => None end.
Proof.
  intro Hc. destruct (space_no_digit c Hc) as [H1 H2]. apply N.eqb_neq in H1. induction t as [|x t IH]; intros acc us; cbn [app int_digits].
  - rewrite H1, H2. destruct us; reflexivity.
  - destruct (N.eqb x 95); [destruct us; [reflexivity|apply IH]|]. destruct (digit_val 10 x); [apply IH|]. destruct us; reflexivity.
Qed.
Lemma lstrip_tail c s : is_space c = true -> lstrip (s ++ [c]) = match lstrip s with [] => [] | x :: y => (x :: y) ++ [c] end.
Proof.
  intro Hc. unfold lstrip. induction s as [|x s IH]; cbn [app drop_while].
  - rewrite Hc. reflexivity.
  - destruct (is_space x); [exact IH|reflexivity].
Qed.
Lemma unsigned_tail c s : is_space c = true -> int_unsigned 10 (s ++ [c]) = match int_unsigned 10 s with Some (v, rest) => Some (v, rest ++ [c]) | None => None end.
Proof.
  intro Hc. destruct s as [|x s]; cbn [app int_unsigned]; [rewrite (proj2 (space_no_digit c Hc)); reflexivity|].
  destruct (digit_val 10 x); [|reflexivity]. exact (digits_tail c (x :: s) Hc 0%Z false).
Qed.
Lemma prefix10 s : int_prefix 10 s = s.
Proof. unfold int_prefix. destruct s as [|x [|y t]]; try reflexivity; destruct x as [|[]]; try reflexivity; repeat (match goal with |- context [match ?p with _ => _ end] => destruct p end; try reflexivity). Qed.
Lemma int_tail c s : is_space c = true -> py_int 10 (s ++ [c]) = py_int 10 s.
Proof.
  intro Hc. unfold py_int. rewrite (lstrip_tail c s Hc). destruct (lstrip s) as [|x y]; [reflexivity|].
  assert (E : int_sign ((x :: y) ++ [c]) = (fst (int_sign (x :: y)), snd (int_sign (x :: y)) ++ [c])).
  { cbn [app int_sign]. destruct x as [|p]; [reflexivity|]. repeat (match goal with |- context [match ?p with _ => _ end] => destruct p end; try reflexivity). }
  rewrite E. destruct (int_sign (x :: y)) as [neg s2]. cbn [fst snd]. rewrite !prefix10, (unsigned_tail c s2 Hc).
  destruct (int_unsigned 10 s2) as [[v rest]|]; [|reflexivity]. rewrite (lstrip_tail c rest Hc). destruct (lstrip rest); reflexivity.
Qed.
Lemma int_lead a s : forallb is_space a = true -> py_int 10 (a ++ s) = py_int 10 s.
Proof. intro H. unfold py_int. replace (lstrip (a ++ s)) with (lstrip s); [reflexivity|]. unfold lstrip. rewrite drop_while_app_all by exact H. reflexivity. Qed.
Lemma int_tails b s : forallb is_space b = true -> py_int 10 (s ++ b) = py_int 10 s.
Proof.
  revert s. induction b as [|c b IH]; intros s H; [rewrite app_nil_r; reflexivity|]. cbn [forallb] in H. apply andb_true_iff in H as [H1 H2].
  change (c :: b) with ([c] ++ b). rewrite app_assoc, (IH _ H2). apply int_tail. exact H1.
Qed.
Lemma int_strip s : py_int 10 (strip s) = py_int 10 s.
Proof. destruct (strip_split s) as (a & b & E & Ha & Hb). rewrite E at 2. rewrite (int_lead _ _ Ha), (int_tails _ _ Hb). reflexivity. Qed.
Lemma declared_neat hs : forall d, declared_length (map (fun h : header => (fst h, strip (snd h))) hs) d = declared_length hs d.
Proof. induction hs as [|[n v] hs IH]; intro d; [reflexivity|]. cbn [map declared_length fst snd]. rewrite int_strip, IH. reflexivity. Qed.
Lemma strip_twice s : strip (strip s) = strip s.
Proof. apply strip_trimmed, strip_is_trimmed. Qed.
Lemma neat_twice w : neat (neat w) = neat w.
Proof. unfold neat. cbn [w_version w_headers w_body]. rewrite map_map. cbn [fst snd]. f_equal. apply map_ext. intros [n v]. cbn [fst snd]. rewrite strip_twice. reflexivity. Qed.

(** the records that come out of a reading *)
Definition name_text (n : bytes) : Prop := no_lf n /\ ~ In COLON n /\ tidy n.
Definition text_wrec (w : wrec) : Prop :=
  (exists ws tag num, w_version w = ws ++ tag ++ num /\ no_lf ws /\ forallb is_space ws = true /\ lower tag = B "warc/" /\ In num known_numbers) /\
  Forall (fun h : header => name_text (fst h) /\ no_lf (snd h)) (w_headers w).
Lemma neat_text w : text_wrec w -> text_wrec (neat w).
Proof.
  intros [H1 H2]. split; [exact H1|]. cbn [neat w_headers]. apply Forall_map. apply (Forall_impl _) with (2 := H2). intros [n v] [Hn Hv]. cbn [fst snd] in *. split; [exact Hn|].
  intro Hi. apply Hv. destruct (strip_split v) as (a & b & -> & _). apply in_or_app. right. apply in_or_app. left. exact Hi.
Qed.
Lemma strip_one_line l : one_line l -> no_lf (strip l).
Proof.
  intros H Hi. destruct (strip_split l) as (a & b & E & _). apply in_split in Hi as (u & v & Eu). rewrite Eu in E.
  assert (Hv : v ++ b = []). { apply (H (a ++ u)). rewrite E at 1. rewrite <- !app_assoc. reflexivity. }
  apply app_eq_nil in Hv as [-> _]. destruct (strip_is_trimmed l) as [_ T]. specialize (T u LF Eu). discriminate.
Qed.
Lemma join_no_lf ps : Forall no_lf ps -> no_lf (join (B " ") ps).
Proof.
  induction 1 as [|p ps Hp Hps IH]; [intros []|]. destruct ps as [|q ps]; [exact Hp|].
  change (join (B " ") (p :: q :: ps)) with (p ++ B " " ++ join (B " ") (q :: ps)). intro Hi. apply in_app_or in Hi as [Hi|Hi]; [exact (Hp Hi)|].
  apply in_app_or in Hi as [[Hi|[]]|Hi]; [discriminate|exact (IH Hi)].
Qed.
Lemma before_colon_none l : ~ In COLON (before_colon l).
Proof. induction l as [|c t IH]; [intros []|]. cbn [before_colon]. destruct (N.eqb_spec c COLON); [intros []|]. intros [->|Hi]; [congruence|exact (IH Hi)]. Qed.
Lemma in_strip c s : In c (strip s) -> In c s.
Proof. intro Hi. destruct (strip_split s) as (a & b & E & _). rewrite E. apply in_or_app. right. apply in_or_app. left. exact Hi. Qed.
Lemma group_text g : Forall one_line (hgroup_lines g) -> header_like (fst g) = true ->
  name_text (fst (hgroup_header g)) /\ no_lf (snd (hgroup_header g)).
Proof.
  intros Hl Hh. unfold header_like in Hh. apply andb_true_iff in Hh as [Hc _]. pose proof (colon_split _ Hc) as E.
  inversion Hl as [|? ? H1 H2]; subst. unfold hgroup_header. cbn [fst snd]. split.
  - split; [|split].
    + intro Hi. apply in_strip in Hi. apply in_split in Hi as (u & v & Eu). rewrite Eu in E.
      assert (X : v ++ COLON :: behind_colon (fst g) = []) by (apply (H1 u); rewrite E at 1; rewrite <- app_assoc; reflexivity). destruct v; discriminate.
    + intro Hi. apply in_strip in Hi. exact (before_colon_none _ Hi).
    + apply strip_twice.
  - apply join_no_lf. cbn [map]. constructor.
    + apply strip_one_line. rewrite E in H1. change (COLON :: behind_colon (fst g)) with ([COLON] ++ behind_colon (fst g)) in H1. apply one_line_suffix in H1. apply one_line_suffix in H1. exact H1.
    + apply Forall_map. apply (Forall_impl _) with (2 := H2). apply strip_one_line.
Qed.
Lemma reading_text_wrec text r more body : reads_as (lines_of text) r more -> text_wrec (rd_wrec r body).
Proof.
  intros (El & _ & _ & Hv & Hn & (Hg & _) & _). pose proof (lines_ok text) as Hok. rewrite El in Hok. unfold rd_lines in Hok.
  apply Forall_app in Hok as [Hok _]. apply Forall_app in Hok as [_ Hok]. inversion Hok as [|? ? [Hv1 _] Hok2]; subst. apply Forall_app in Hok2 as [Hok2 _]. split.
  - exists (rd_ws r), (rd_tag r), (rd_num r). destruct Hv as (_ & Ht & _ & Hw & _ & _). split; [reflexivity|]. split; [|split; [exact Hw|split; [exact Ht|exact Hn]]].
    intro Hi. apply in_split in Hi as (u & v & Eu). unfold rd_vline in Hv1. rewrite Eu in Hv1.
    assert (X : v ++ rd_tag r ++ rd_num r ++ rd_nl r = []) by (apply (Hv1 (rd_pfx r ++ u)); rewrite <- !app_assoc; reflexivity).
    apply app_eq_nil in X as [_ X]. apply app_eq_nil in X as [X _]. rewrite X in Ht. discriminate.
  - cbn [w_headers rd_wrec]. unfold rd_headers. apply Forall_map. apply Forall_forall. intros g Hi. rewrite Forall_forall in Hg. destruct (Hg g Hi) as (_ & Hh & _).
    apply group_text; [|exact Hh]. apply Forall_forall. intros l Hl. rewrite Forall_forall in Hok2. apply Hok2. apply in_concat. exists (hgroup_lines g). split; [apply in_map; exact Hi|exact Hl].
Qed.
(** the reading of a canonical text *)
Definition canon_reading (before : list bytes) (ws tag num : bytes) (hs : list header) : reading :=
  mkreading before [] ws tag num CRLF (map (fun h => (header_text h, [])) hs) [CRLF].
Lemma crlf_line s : no_lf s -> is_line (s ++ CRLF).
Proof.
  intro H. exists (s ++ [CR]). split; [|unfold line_text; rewrite <- app_assoc; reflexivity]. intro Hi. apply in_app_or in Hi as [Hi|[Hi|[]]]; [exact (H Hi)|discriminate].
Qed.
Lemma header_line_ok h : name_text (fst h) -> no_lf (snd h) -> is_line (header_text h) /\ header_like (header_text h) = true /\
  blank_text (header_text h) = false /\ cont_text_line (header_text h) = false /\ hgroup_header (header_text h, []) = (fst h, strip (snd h)).
Proof.
  destruct h as [n v]. cbn [fst snd]. intros (H1 & H2 & H3) Hv. unfold header_text. cbn [fst snd].
  assert (Hl : last (n ++ B ": " ++ v ++ CRLF) 0%N = LF). { change CRLF with ([CR] ++ [LF]). rewrite !app_assoc. apply last_last. }
  assert (Hb : forall l, ~ In COLON l -> forall t, before_colon (l ++ COLON :: t) = l /\ behind_colon (l ++ COLON :: t) = t).
  { induction l as [|c l IH]; intros Hn t; cbn [app before_colon behind_colon]; [split; reflexivity|]. destruct (N.eqb_spec c COLON) as [->|Hc]; [elim Hn; left; reflexivity|].
    destruct (IH (fun H => Hn (or_intror H)) t) as [-> ->]. split; reflexivity. }
  assert (Hfirst : match n with [] => True | c :: _ => is_space c = false end).
  { destruct n as [|c n]; [exact I|]. unfold tidy in H3. destruct (strip_is_trimmed (c :: n)) as [T _]. rewrite H3 in T. apply (T c n eq_refl). }
  split; [|split; [|split; [|split]]].
  - rewrite (app_assoc (B ": ")), app_assoc. apply crlf_line. intro Hi. apply in_app_or in Hi as [Hi|Hi]; [exact (H1 Hi)|]. apply in_app_or in Hi as [[Hi|[Hi|[]]]|Hi]; try discriminate. exact (Hv Hi).
  - unfold header_like. rewrite Hl. rewrite existsb_app. change (existsb (N.eqb COLON) (B ": " ++ v ++ CRLF)) with true. rewrite orb_true_r. reflexivity.
  - destruct n as [|c n]; [reflexivity|]. cbn [app blank_text]. destruct (N.eqb_spec c 13) as [->|_]; [discriminate|]. destruct (N.eqb_spec c 10) as [->|_]; [discriminate|]. reflexivity.
  - destruct n as [|c n]; [destruct v; reflexivity|]. cbn [app]. unfold cont_text_line. rewrite Hfirst. destruct (n ++ B ": " ++ v ++ CRLF) as [|? [|? ?]]; reflexivity.
  - unfold hgroup_header. cbn [fst snd map join]. change (B ": ") with [COLON; 32%N]. cbn [app]. destruct (Hb n H2 (32%N :: v ++ CRLF)) as [-> ->].
    f_equal; [exact H3|]. rewrite (strip_cons 32 _ eq_refl). apply strip_app_r. reflexivity.
Qed.
Lemma canon_reads (before : list bytes) w x ws tag num :
  before = [] \/ before = [CRLF; CRLF] ->
  w_version w = ws ++ tag ++ num -> no_lf ws -> forallb is_space ws = true -> lower tag = B "warc/" -> In num known_numbers ->
  Forall (fun h : header => name_text (fst h) /\ no_lf (snd h)) (w_headers w) ->
  reads_as (lines_of (concat before ++ head_text (w_version w) (w_headers w) ++ x)) (canon_reading before ws tag num (w_headers w)) (lines_of x) /\
  forall body, rd_wrec (canon_reading before ws tag num (w_headers w)) body = mkw (w_version w) (w_headers (neat w)) body.
Proof.
  intros Hb Ev Hl Hw Ht Hn Hh.
  assert (Hnum : no_lf num /\ line_end num CRLF) by (split; [destruct Hn as [<-|[<-|[<-|[]]]]; intro H; repeat (destruct H as [H|H]; [discriminate|]); destruct H|left; reflexivity]).
  assert (Hbl : Forall is_line before) by (destruct Hb as [-> | ->]; repeat constructor; apply (crlf_line []); intros []).
  assert (Hlines : Forall is_line (rd_lines (canon_reading before ws tag num (w_headers w)))).
  { unfold rd_lines, canon_reading, rd_vline. cbn [rd_before rd_pfx rd_ws rd_tag rd_num rd_nl rd_heads rd_stop app]. apply Forall_app. split; [exact Hbl|]. constructor.
    - apply (vline_is_line [] ws tag num); [intros []|exact Hl|exact Ht|exact (proj1 Hnum)|left; reflexivity].
    - apply Forall_app. split; [|repeat constructor; apply (crlf_line []); intros []]. rewrite map_map. clear -Hh. induction Hh as [|h hs [H1 H2] _ IH]; [constructor|]. cbn [map concat hgroup_lines fst snd app]. constructor; [apply (header_line_ok h H1 H2)|exact IH]. }
  split.
  - split; [|split; [|split; [|split; [|split; [|split]]]]].
    + rewrite <- (lines_of_lines _ x Hlines). f_equal. rewrite app_assoc. f_equal. unfold rd_lines, canon_reading, rd_vline. cbn [rd_before rd_pfx rd_ws rd_tag rd_num rd_nl rd_heads rd_stop app].
      rewrite concat_app. f_equal. cbn [concat]. rewrite concat_app. unfold head_text. rewrite Ev, <- !app_assoc. do 4 f_equal.
      change (concat [CRLF]) with CRLF. f_equal. rewrite map_map. clear. induction (w_headers w) as [|h hs IH]; [reflexivity|]. cbn [map concat hgroup_lines fst snd app]. rewrite IH. reflexivity.
    + cbn [canon_reading rd_before]. destruct Hb as [-> | ->]; repeat constructor.
    + cbn [canon_reading rd_before]. destruct Hb as [-> | ->]; vm_compute; lia.
    + split; [reflexivity|]. split; [exact Ht|]. split; [reflexivity|]. split; [exact Hw|]. split; [intros [|? ?] c E; discriminate|left; reflexivity].
    + exact Hn.
    + cbn [canon_reading rd_heads]. assert (G : Forall (fun g : hgroup => blank_text (fst g) = false /\ header_like (fst g) = true /\ Forall (fun c => cont_text_line c = true) (snd g) /\ cont_text_line (fst g) = false) (map (fun h => (header_text h, [])) (w_headers w))).
      { apply Forall_map. apply (Forall_impl _) with (2 := Hh). intros h [H1 H2]. destruct (header_line_ok h H1 H2) as (_ & A & C & D & _). cbn [fst snd]. repeat split; [exact C|exact A|constructor|exact D]. }
      split; [apply (Forall_impl _) with (2 := G); intros g (A & C & D & _); auto|]. destruct G as [|? ? _ G]; [constructor|]. cbn [tl]. apply (Forall_impl _) with (2 := G). intros g (_ & _ & _ & D). exact D.
    + cbn [canon_reading rd_heads rd_stop]. right. exists CRLF. split; [reflexivity|]. split; [reflexivity|]. right. reflexivity.
  - intro body. unfold rd_wrec, canon_reading, rd_headers. cbn [rd_ws rd_tag rd_num rd_heads]. rewrite Ev. f_equal. rewrite map_map. cbn [neat w_headers].
    apply map_ext_in. intros h Hi. rewrite Forall_forall in Hh. destruct (Hh h Hi) as [H1 H2]. apply (header_line_ok h H1 H2).
Qed.

Definition crlf2 : list bytes := [CRLF; CRLF].
Definition canon_all (l : list wrec) : bytes := concat (map canonical l).
Lemma effect_whole r p x : due r = Z.of_nat (List.length p) ->
  copied true None r (p ++ x) = mkeffect (canonical (rd_wrec r p)) (Ret tt) x 0%Z.
Proof.
  intro H. unfold copied, whole. rewrite H. assert (E : (0 <=? Z.of_nat (List.length p))%Z = true) by lia. rewrite E, Nat2Z.id.
  rewrite firstn_app, firstn_all, Nat.sub_diag, skipn_app, skipn_all, Nat.sub_diag. cbn [firstn skipn app]. rewrite app_nil_r.
  assert (E2 : (Z.of_nat (List.length p) <? 0)%Z = false) by lia. rewrite E2. cbn [andb in_output]. rewrite Z.sub_diag. reflexivity.
Qed.
Lemma effect_negative r x : (due r < 0)%Z -> x <> [] -> e_end (copied true None r x) = Raise EValueError.
Proof.
  intros H Hx. unfold copied, whole. assert (E : (0 <=? due r)%Z = false) by lia. rewrite E. cbn [negb]. rewrite orb_false_r.
  destruct (due r =? -1)%Z; [|reflexivity]. assert (E2 : (due r <? 0)%Z = true) by lia. rewrite E2. cbn [andb]. destruct x; [congruence|reflexivity].
Qed.
Lemma records_text text l : text_records text l -> Forall text_wrec l /\ Forall (fun w => declares w = Z.of_nat (List.length (w_body w)) \/ (declares w < 0)%Z) l.
Proof.
  induction 1 as [text Hv Hj|text r more body after l Hr Hd Hm _ [IH1 IH2]|text r Hr Hd].
  - split; constructor.
  - split; constructor; [exact (reading_text_wrec _ _ _ _ Hr)|exact IH1|left; exact Hd|exact IH2].
  - split; (constructor; [|constructor]); [exact (reading_text_wrec _ _ _ _ Hr)|right; unfold declares; cbn [w_headers rd_wrec]; unfold due in Hd; rewrite Hd; lia].
Qed.
Section Copies.
  Variables (hg : bytes -> outcome bytes) (uz ug : bytes -> option bytes).
  Let visit := copy_visit hg uz ug true None false.
  Lemma visit_copied r x : visit r x = copied true None r x.
  Proof. reflexivity. Qed.
  (** copying canonical records *)
  Lemma copy_canon l : Forall text_wrec l -> Forall (fun w => declares w = Z.of_nat (List.length (w_body w))) l ->
    forall before, before = [] \/ before = crlf2 -> tool_run visit (concat before ++ canon_all l) (canon_all (map neat l)) (Ret tt).
  Proof.
    intros Ht Hd. induction Ht as [|w l [(ws & tag & num & Ev & Hl & Hw & Htag & Hn) Hh] _ IH]; intros before Hb; inversion Hd as [|? ? Hd1 Hd2]; subst.
    - cbn [canon_all map concat]. rewrite app_nil_r. apply tool_end; destruct Hb as [-> | ->]; repeat constructor.
    - unfold canon_all. cbn [map concat]. fold (canon_all l). fold (canon_all (map neat l)). unfold canonical at 1, wrec_text. rewrite <- !app_assoc.
      destruct (canon_reads before w (w_body w ++ terminator ++ canon_all l) ws tag num Hb Ev Hl Hw Htag Hn Hh) as [Hr Hw2].
      set (r := canon_reading before ws tag num (w_headers w)) in *.
      assert (Hdue : due r = Z.of_nat (List.length (w_body w))).
      { unfold due. replace (rd_headers r) with (w_headers (rd_wrec r [])) by reflexivity. rewrite Hw2. cbn [w_headers neat]. rewrite declared_neat. exact Hd1. }
      assert (Hc : concat (lines_of (w_body w ++ terminator ++ canon_all l)) = w_body w ++ terminator ++ canon_all l) by apply concat_lines.
      pose proof (effect_whole r (w_body w) (terminator ++ canon_all l) Hdue) as Ee.
      assert (Ev2 : visit r (concat (lines_of (w_body w ++ terminator ++ canon_all l))) = mkeffect (canonical (neat w)) (Ret tt) (terminator ++ canon_all l) 0%Z).
      { rewrite Hc, visit_copied, Ee, Hw2. reflexivity. }
      pose proof (tool_record visit _ r _ [] (terminator ++ canon_all l) (canon_all (map neat l)) (Ret tt) Hr) as T. rewrite Ev2 in T. cbn [e_out e_end e_text e_due] in T.
      apply T; [reflexivity|reflexivity|reflexivity|]. apply (IH Hd2 crlf2). right. reflexivity.
  Qed.
  Lemma copy_negative l : Forall text_wrec l -> Forall (fun w => declares w = Z.of_nat (List.length (w_body w)) \/ (declares w < 0)%Z) l -> Exists (fun w => (declares w < 0)%Z) l ->
    forall before, before = [] \/ before = crlf2 -> exists out, tool_run visit (concat before ++ canon_all l) out (Raise EValueError).
  Proof.
    intros Ht Hd. induction Ht as [|w l [(ws & tag & num & Ev & Hl & Hw & Htag & Hn) Hh] _ IH]; intros He before Hb; [inversion He|]. inversion Hd as [|? ? Hd1 Hd2]; subst.
    unfold canon_all. cbn [map concat]. fold (canon_all l). unfold canonical at 1, wrec_text. rewrite <- !app_assoc.
    destruct (canon_reads before w (w_body w ++ terminator ++ canon_all l) ws tag num Hb Ev Hl Hw Htag Hn Hh) as [Hr Hw2].
    set (r := canon_reading before ws tag num (w_headers w)) in *.
    assert (Hdue : due r = declares w).
    { unfold due. replace (rd_headers r) with (w_headers (rd_wrec r [])) by reflexivity. rewrite Hw2. cbn [w_headers neat]. rewrite declared_neat. reflexivity. }
    assert (Hc : concat (lines_of (w_body w ++ terminator ++ canon_all l)) = w_body w ++ terminator ++ canon_all l) by apply concat_lines.
    destruct (Z_lt_le_dec (declares w) 0) as [L|L].
    - assert (E : e_end (visit r (concat (lines_of (w_body w ++ terminator ++ canon_all l)))) = Raise EValueError).
      { rewrite Hc, visit_copied. apply effect_negative; [lia|]. intro X. apply app_eq_nil in X as [_ X]. discriminate. }
      eexists. rewrite <- E. eapply tool_fails; [exact Hr|rewrite E; discriminate].
    - destruct Hd1 as [Hd1|Hd1]; [|lia]. rewrite Hd1 in Hdue. pose proof (effect_whole r (w_body w) (terminator ++ canon_all l) Hdue) as Ee.
      assert (Ev2 : visit r (concat (lines_of (w_body w ++ terminator ++ canon_all l))) = mkeffect (canonical (neat w)) (Ret tt) (terminator ++ canon_all l) 0%Z).
      { rewrite Hc, visit_copied, Ee, Hw2. reflexivity. }
      assert (He2 : Exists (fun w => (declares w < 0)%Z) l) by (inversion He; subst; [lia|assumption]).
      destruct (IH Hd2 He2 crlf2 (or_intror eq_refl)) as [out T2]. exists (canonical (neat w) ++ out).
      pose proof (tool_record visit _ r _ [] (terminator ++ canon_all l) out (Raise EValueError) Hr) as T. rewrite Ev2 in T. cbn [e_out e_end e_text e_due] in T.
      apply T; [reflexivity|reflexivity|reflexivity|exact T2].
  Qed.
  (** copying any text *)
  Lemma copy_records text l : text_records text l -> tool_run visit text (canon_all l) (Ret tt).
  Proof.
    induction 1 as [text Hv Hj|text r more body after l Hr Hd Hm _ IH|text r Hr Hd].
    - apply tool_end; assumption.
    - assert (E : visit r (concat more) = mkeffect (canonical (rd_wrec r body)) (Ret tt) after 0%Z) by (rewrite Hm, visit_copied; apply effect_whole; exact Hd).
      pose proof (tool_record visit text r more [] after (canon_all l) (Ret tt) Hr) as T. rewrite E in T. cbn [e_out e_end e_text e_due] in T. apply T; [reflexivity|reflexivity|reflexivity|exact IH].
    - assert (E : visit r [] = mkeffect (canonical (rd_wrec r [])) (Ret tt) [] (-1)%Z).
      { rewrite visit_copied. unfold copied, whole. rewrite Hd. reflexivity. }
      pose proof (tool_record visit text r [] [] [] [] (Ret tt) Hr) as T. cbn [concat] in T. rewrite E in T. cbn [e_out e_end e_text e_due] in T.
      unfold canon_all. cbn [map concat]. apply T; [reflexivity|reflexivity|reflexivity|]. apply tool_end; [constructor|reflexivity].
  Qed.
  Lemma copy_records_back text out o : tool_run visit text out o -> o = Ret tt -> exists l, text_records text l /\ out = canon_all l.
  Proof.
    induction 1 as [text Hv H5|text Hv H5|text before l t El Hb1 Hb2 Hl|text before l t pfx ws tag num nl El Hb1 Hb2 Has Hn
      |text before l t pfx ws tag num nl El Hb1 Hb2 Has Hn Hs|text r more Hra He|text r more Hra He Hlt|text r more body0 after out o Hra He Em Hd Hrun IH]; intro Eo; try discriminate.
    - exists []. split; [apply records_end; assumption|reflexivity].
    - congruence.
    - subst o. destruct (IH eq_refl) as (l & Hl & ->). rewrite visit_copied in He, Em, Hd |- *. unfold copied, whole in He, Em, Hd |- *.
      destruct (0 <=? due r)%Z eqn:E0.
      + assert (E2 : (due r <? 0)%Z = false) by lia. rewrite E2 in *. cbn [andb e_text e_due e_out in_output] in *.
        set (p := firstn (Z.to_nat (due r)) (concat more)) in *. exists (rd_wrec r p :: l). split; [|reflexivity].
        assert (Lp : Z.of_nat (List.length p) = due r).
        { destruct (Nat.le_gt_cases (Z.to_nat (due r)) (List.length (concat more))) as [L|L]; [unfold p; rewrite firstn_length; lia|].
          exfalso. rewrite skipn_all2 in Em by lia. symmetry in Em. apply app_eq_nil in Em as [-> _]. unfold p in Hd. rewrite firstn_all2 in Hd by lia. cbn [List.length] in Hd. lia. }
        assert (body0 = []) as -> by (destruct body0; [reflexivity|cbn [List.length] in Hd; lia]). cbn [app] in Em.
        eapply records_more; [exact Hra|symmetry; exact Lp| |exact Hl]. rewrite <- Em. unfold p. symmetry. apply firstn_skipn.
      + cbn [negb] in *. rewrite orb_false_r in *. destruct (due r =? -1)%Z eqn:E1; [|discriminate]. assert (E2 : (due r <? 0)%Z = true) by lia. rewrite E2 in *. cbn [andb] in *.
        destruct (bytes_eqb (concat more) []) eqn:E3; [|discriminate]. cbn [negb e_text e_due e_out in_output] in *. apply bytes_eqb_eq in E3.
        symmetry in Em. apply app_eq_nil in Em as [-> ->].
        assert (Hl0 : l = []). { inversion Hl as [| ? r' more' body' after' ? (X & _) | ? r' (X & _)]; subst; [reflexivity| |]; cbn [lines_of] in X; unfold rd_lines in X; destruct (rd_before r'); discriminate. }
        subst l. exists [rd_wrec r []]. split; [|rewrite E3; reflexivity].
        assert (more = []) as -> .
        { destruct Hra as (El & _). pose proof (lines_ok text) as Hok. rewrite El in Hok. apply Forall_app in Hok as [_ Hok]. destruct Hok as [|x more [_ Hx] _]; [reflexivity|]. cbn [concat] in E3. apply app_eq_nil in E3 as [E3 _]. congruence. }
        apply records_last; [exact Hra|lia].
  Qed.
End Copies.
Lemma one_file gunzip hg uz ug i text out o : file_holds gunzip i text ->
  warc2warc gunzip hg uz ug None false [i] = (o, out) <-> tool_run (copy_visit hg uz ug true None false) text out o.
Proof.
  intro H. pose proof (C74_warc2warc_any_files gunzip hg uz ug None false [(i, text)] out o ltac:(constructor; [exact H|constructor])) as C. cbn [map fst] in C. rewrite <- C. split.
  - intro F. inversion F as [|? ? ? ? Hr Hn|? ? out1 out2 ? Hr Hrest]; subst; cbn [snd] in Hr; [exact Hr|]. inversion Hrest; subst. rewrite app_nil_r. exact Hr.
  - intro T. destruct o as [[]|e|].
    + rewrite <- (app_nil_r out). eapply files_more; [exact T|constructor].
    + apply files_stop; [exact T|discriminate].
    + apply files_stop; [exact T|discriminate].
Qed.

(** ** C75 *)
(** warc2warc succeeds on exactly the files that are sequences of complete records, and writes these in canonical form *)
Theorem C75_succeeds_exactly : forall gunzip http_gz unzlib ungzip (i : input) (text out : bytes), file_holds gunzip i text ->
  (warc2warc gunzip http_gz unzlib ungzip None false [i] = (Ret tt, out) <-> exists l, text_records text l /\ out = concat (map canonical l)).
Proof.
  intros gunzip hg uz ug i text out H. rewrite (one_file gunzip hg uz ug i text out _ H). split.
  - intro T. exact (copy_records_back hg uz ug _ _ _ T eq_refl).
  - intros (l & Hl & ->). exact (copy_records hg uz ug _ _ Hl).
Qed.
(** copying the copy: the same records, header values without white space around them; except when a record declared
    a negative length *)
Theorem C75_copy_of_a_copy : forall gunzip http_gz unzlib ungzip (text : bytes) (l : list wrec) (i : input),
  text_records text l -> plain_file i (concat (map canonical l)) ->
  (Forall (fun w => (0 <= declares w)%Z) l ->
     warc2warc gunzip http_gz unzlib ungzip None false [i] = (Ret tt, concat (map canonical (map neat l)))) /\
  (Exists (fun w => (declares w < 0)%Z) l ->
     exists out, warc2warc gunzip http_gz unzlib ungzip None false [i] = (Raise EValueError, out)).
Proof.
  intros gunzip hg uz ug text l i Hl Hp. destruct (records_text _ _ Hl) as [Ht Hd]. pose proof (or_introl Hp : file_holds gunzip i _) as Hf. split.
  - intro Hn. apply (one_file gunzip hg uz ug i _ _ _ Hf). apply (copy_canon hg uz ug l Ht) with (before := []); [|left; reflexivity].
    rewrite Forall_forall in *. intros w Hw. specialize (Hn w Hw). destruct (Hd w Hw); [assumption|lia].
  - intro He. destruct (copy_negative hg uz ug l Ht Hd He [] (or_introl eq_refl)) as [out T]. exists out. apply (one_file gunzip hg uz ug i _ _ _ Hf). exact T.
Qed.
(** whatever the file: once a copy of its copy can be made, it is copied byte for byte *)
Theorem C75_second_copy_is_final : forall gunzip http_gz unzlib ungzip (i1 i2 i3 : input) (text out1 out2 : bytes),
  file_holds gunzip i1 text -> plain_file i2 out1 -> plain_file i3 out2 ->
  warc2warc gunzip http_gz unzlib ungzip None false [i1] = (Ret tt, out1) ->
  warc2warc gunzip http_gz unzlib ungzip None false [i2] = (Ret tt, out2) ->
  warc2warc gunzip http_gz unzlib ungzip None false [i3] = (Ret tt, out2).
Proof.
  intros gunzip hg uz ug i1 i2 i3 text out1 out2 H1 H2 H3 E1 E2. apply (C75_succeeds_exactly gunzip hg uz ug i1 text out1 H1) in E1 as (l & Hl & ->).
  destruct (C75_copy_of_a_copy gunzip hg uz ug text l i2 Hl H2) as [A C]. destruct (records_text _ _ Hl) as [Ht Hd].
  destruct (Forall_Exists_dec (fun w => (0 <= declares w)%Z) (fun w => Z_le_dec 0 (declares w)) l) as [N|N].
  - specialize (A N). assert (E : out2 = canon_all (map neat l)) by (rewrite A in E2; injection E2 as E2; symmetry; exact E2). subst out2.
    apply (one_file gunzip hg uz ug i3 _ _ _ (or_introl H3)). replace (canon_all (map neat l)) with (canon_all (map neat (map neat l))) at 2 by (rewrite map_map; f_equal; apply map_ext; intro w; apply neat_twice).
    apply (copy_canon hg uz ug (map neat l)) with (before := []); [apply Forall_map; apply (Forall_impl _) with (2 := Ht); exact neat_text| |left; reflexivity].
    apply Forall_map. rewrite Forall_forall in *. intros w Hw. specialize (N w Hw). unfold declares in *. cbn [neat w_headers w_body]. rewrite declared_neat. destruct (Hd w Hw); [assumption|lia].
  - exfalso. destruct C as [out C]; [apply (Exists_impl _) with (2 := N); intros w Hw; cbn beta in Hw; lia|]. congruence.
Qed.

(** ** Concrete cases *)
Example C75_hypotheses_met :
  let run d := warc2warc (fun x => x) (fun _ => Diverge) (fun _ => None) (fun _ => None) None false [mkin (B "a.warc") d] in
  let head v := B "WARC/1.0" ++ CRLF ++ B "Subject: " ++ v ++ CRLF ++ B "Content-Length: 2" ++ CRLF ++ CRLF ++ B "xy" ++ terminator in
  let text := B "WARC/1.0" ++ CRLF ++ B "Subject:" ++ CRLF ++ B "  first" ++ [LF] ++ B "Content-Length:2" ++ CRLF ++ CRLF ++ B "xy" in
  (* a folded header whose first line is empty: the first copy has a blank before the value, the second has not *)
  run text = (Ret tt, head (B " first")) /\ run (head (B " first")) = (Ret tt, head (B "first")) /\ run (head (B "first")) = (Ret tt, head (B "first")) /\
  (* a last record of length -1: copied once, never again *)
  let neg := B "WARC/1.0" ++ CRLF ++ B "Content-Length: -1" ++ CRLF ++ CRLF in
  run neg = (Ret tt, neg ++ terminator) /\ fst (run (neg ++ terminator)) = Raise EValueError.
Proof. vm_compute. repeat split; reflexivity. Qed.
