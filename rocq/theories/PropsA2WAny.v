(** C79: arc2warc on any files whatsoever. *)
From Verif Require Export Place PropsAnyFile PropsDateAny PropsMixedAny.
From Coq Require Import String List Lia ZArith.
Open Scope list_scope.

(** ** Specification: what becomes of one record *)
(** the content read in one call: its declared length, or as much as there is; the rest of the file if the length is not known
    or is -1; other negative lengths are refused.  Then comes the text left, and how much of it belongs to the record. *)
Definition piece (len : option Z) (more : bytes) : option (bytes * bytes * Z) :=
  match len with
  | None => Some (more, [], 0%Z)
  | Some d =>
      if (0 <=? d)%Z then
        let p := firstn (Z.to_nat d) more in Some (p, skipn (Z.to_nat d) more, (d - Z.of_nat (List.length p))%Z)
      else if (d =? -1)%Z then Some (more, [], (d - Z.of_nat (List.length more))%Z)
      else None
  end.
(** any(url.startswith(p) for p in prefixes): a prefix that is not a byte string ends the test, unless an earlier one fits *)
Inductive tested (ps : list uprefix) (url : bytes) : outcome bool -> Prop :=
| tested_yes before p after t : ps = before ++ PBytes p :: after -> byte_prefixes before -> lower url = p ++ t -> tested ps url (Ret true)
| tested_text before after : ps = before ++ PText :: after -> byte_prefixes before -> ~ starts_with_one before url -> tested ps url (Raise ETypeError)
| tested_no : byte_prefixes ps -> ~ starts_with_one ps url -> tested ps url (Ret false).
(** an exception or a hang, whatever would have been returned *)
Definition failure {A} (o : outcome A) : outcome unit := match o with Ret _ => Ret tt | Raise e => Raise e | Diverge => Diverge end.
Definition fails {A} (o : outcome A) : Prop := match o with Ret _ => False | _ => True end.

Section Any.
Variables (uuid : bytes -> bytes) (clock : nat -> datetime) (http_gz : bytes -> outcome bytes) (gz : option gzipper).
Variables (output : bool) (fields : bytes) (resources responses : list uprefix).

(** the record type and the content type *)
Inductive decided (url ct content : bytes) : outcome (bytes * bytes) -> Prop :=
| decided_resource : tested resources url (Ret true) -> decided url ct content (Ret (B "resource", ct))
| decided_text1 e : tested resources url (Raise e) -> decided url ct content (Raise e)
| decided_response : tested resources url (Ret false) -> tested responses url (Ret true) -> decided url ct content (Ret (B "response", ct))
| decided_text2 e : tested resources url (Ret false) -> tested responses url (Raise e) -> decided url ct content (Raise e)
| decided_http t : tested resources url (Ret false) -> tested responses url (Ret false) -> lower url = B "http" ++ t ->
    whole_response http_gz content -> decided url ct content (Ret (B "response", B "application/http;msgtype=response"))
| decided_part t : tested resources url (Ret false) -> tested responses url (Ret false) -> lower url = B "http" ++ t ->
    partial_response http_gz content -> decided url ct content (Ret (B "resource", ct))
| decided_error t e : tested resources url (Ret false) -> tested responses url (Ret false) -> lower url = B "http" ++ t ->
    Http.feed http_gz (Http.new_response [] []) content = Raise e -> decided url ct content (Raise e)
| decided_hang t : tested resources url (Ret false) -> tested responses url (Ret false) -> lower url = B "http" ++ t ->
    Http.feed http_gz (Http.new_response [] []) content = Diverge -> decided url ct content Diverge
| decided_other : tested resources url (Ret false) -> tested responses url (Ret false) -> (forall t, lower url <> B "http" ++ t) ->
    decided url ct content (Ret (B "response", ct)).

(** the converter remembers the id of the last warcinfo record and how often it has asked for the time *)
Definition memory : Type := option bytes * nat.
Definition now (s : memory) : bytes := warc_datetime_str (clock (snd s)).
(** what was written of a record whose next header line cannot be written *)
Definition broken_off (hs : list header) : bytes :=
  torn_output gz (B "WARC/1.0" ++ CRLF ++ concat (map header_text hs)).
Definition stop (out : bytes) (o : outcome unit) : effect := mkeffect out o [] 0%Z.
Definition written (ws : list wrec) : bytes := concat (map (fun w => in_output gz (canonical w)) ws).
(** a WARC record is copied piece by piece *)
Definition warc_copy (v : bytes) (hs : list header) (d : Z) (more : bytes) : effect :=
  match piece (Some d) more with
  | Some (p, rest, d') =>
      if (d <? 0)%Z && negb (bytes_eqb p []) then stop (torn_output gz (head_text v hs ++ p)) (Raise EValueError)
      else mkeffect (in_output gz (canonical (mkw v hs p))) (Ret tt) rest d'
  | None => stop (torn_output gz (head_text v hs)) (Raise EValueError)
  end.
(** an ARC record with fields [hs] *)
Inductive arc_turns (s : memory) (hs : list header) (len : option Z) (more : bytes) : effect -> memory -> Prop :=
| arc_no_field : first_header (B "URL") hs = None \/ first_header (B "Archive-date") hs = None ->
    arc_turns s hs len more (stop [] (Raise ETypeError)) s
| arc_bad_date url date : first_header (B "URL") hs = Some url -> first_header (B "Archive-date") hs = Some date ->
    (forall text, ~ date_read (now s) date text) -> arc_turns s hs len more (stop [] (Raise EValueError)) s
| arc_refused url date text : first_header (B "URL") hs = Some url -> first_header (B "Archive-date") hs = Some date ->
    date_read (now s) date text -> piece len more = None -> arc_turns s hs len more (stop [] (Raise EValueError)) s
| arc_no_type url date text p : first_header (B "URL") hs = Some url -> first_header (B "Archive-date") hs = Some date ->
    date_read (now s) date text -> piece len more = Some p -> first_header (B "Content-type") hs = None ->
    arc_turns s hs len more (stop [] (Raise EAttributeError)) s
| arc_undecided url date text p rest d ct o : first_header (B "URL") hs = Some url -> first_header (B "Archive-date") hs = Some date ->
    date_read (now s) date text -> piece len more = Some (p, rest, d) -> first_header (B "Content-type") hs = Some ct ->
    decided url (known_type ct) p o -> fails o -> arc_turns s hs len more (stop [] (failure o)) s
| arc_no_info url date text p rest d ct type ct' : first_header (B "URL") hs = Some url -> first_header (B "Archive-date") hs = Some date ->
    date_read (now s) date text -> piece len more = Some (p, rest, d) -> first_header (B "Content-type") hs = Some ct ->
    decided url (known_type ct) p (Ret (type, ct')) -> fst s = None ->
    arc_turns s hs len more (stop (broken_off [(B "WARC-Record-ID", uuid (url ++ date)); (B "WARC-Target-URI", url)]) (Raise ETypeError)) s
| arc_turned url date text p rest d ct type ct' info : first_header (B "URL") hs = Some url -> first_header (B "Archive-date") hs = Some date ->
    date_read (now s) date text -> piece len more = Some (p, rest, d) -> first_header (B "Content-type") hs = Some ct ->
    decided url (known_type ct) p (Ret (type, ct')) -> fst s = Some info ->
    arc_turns s hs len more
      (mkeffect (written [tuple_wrec (B "WARC/1.0")
         ([(B "WARC-Record-ID", uuid (url ++ date)); (B "WARC-Target-URI", url); (B "WARC-Warcinfo-ID", info)]
          ++ ip_header hs ++ [(B "WARC-Date", text); (B "WARC-Type", type)]) (Some ct') p]) (Ret tt) rest d)
      (Some info, asks hs + snd s).
(** a filedesc record with fields [hs] and the text [head] *)
Inductive desc_turns (s : memory) (hs : list header) (head : bytes) (len : option Z) (more : bytes) : effect -> memory -> Prop :=
| desc_no_url : first_header (B "URL") hs = None -> desc_turns s hs head len more (stop [] (Raise ETypeError)) s
| desc_bad_date url date : first_header (B "URL") hs = Some url -> first_header (B "Archive-date") hs = Some date ->
    (forall text, ~ desc_date_read (now s) date text) -> desc_turns s hs head len more (stop [] (Raise EValueError)) s
| desc_no_date url : first_header (B "URL") hs = Some url -> first_header (B "Archive-date") hs = None ->
    desc_turns s hs head len more (stop [] (Raise ETypeError)) s
| desc_refused url date text : first_header (B "URL") hs = Some url -> first_header (B "Archive-date") hs = Some date ->
    desc_date_read (now s) date text -> piece len more = None -> desc_turns s hs head len more (stop [] (Raise EValueError)) s
| desc_named url date text p : first_header (B "URL") hs = Some url -> first_header (B "Archive-date") hs = Some date ->
    desc_date_read (now s) date text -> piece len more = Some p -> output = true ->
    desc_turns s hs head len more
      (stop (broken_off [(B "WARC-Type", B "warcinfo"); (B "WARC-Record-ID", uuid (url ++ now s)); (B "WARC-Date", now s)]) (Raise ETypeError)) s
| desc_turned url date text p rest d name : first_header (B "URL") hs = Some url -> first_header (B "Archive-date") hs = Some date ->
    desc_date_read (now s) date text -> piece len more = Some (p, rest, d) -> output = false -> archive_name url name ->
    let info := uuid (url ++ now s) in
    desc_turns s hs head len more
      (mkeffect (written
        [tuple_wrec (B "WARC/1.0") [(B "WARC-Type", B "warcinfo"); (B "WARC-Record-ID", info); (B "WARC-Date", now s)]
           (Some (B "application/warc-fields")) fields;
         tuple_wrec (B "WARC/1.0")
           [(B "WARC-Type", B "metadata"); (B "WARC-Concurrent-To", info); (B "WARC-Record-ID", uuid (url ++ date ++ B "-meta"));
            (B "WARC-Target-URI", name); (B "WARC-Date", text); (B "WARC-Warcinfo-ID", info)]
           (Some (B "application/arc")) (head ++ p)]) (Ret tt) rest d)
      (Some info, S (snd s)).
Inductive turns (s : memory) (r : record) (len : option Z) (more : bytes) : effect -> memory -> Prop :=
| turns_warc v d : r_class r = RWarc v -> len = Some d -> turns s r len more (warc_copy v (r_headers r) d more) s
| turns_arc x s' : r_class r = RArc -> arc_turns s (r_headers r) len more x s' -> turns s r len more x s'
| turns_desc v ls x s' : r_class r = RArcHeader v ls -> desc_turns s (r_headers r) (concat ls) len more x s' -> turns s r len more x s'.

(** ** Specification: whole files *)
(** [a2w_run s names text out o s']: converting a text, with the field names [names] in force *)
Inductive a2w_run : memory -> list bytes -> bytes -> bytes -> outcome unit -> memory -> Prop :=
| a2w_end s names text n names' : finds true names text (FNone n []) names' -> a2w_run s names text [] (Ret tt) s
| a2w_junk s names text n e es names' : finds true names text (FNone n (e :: es)) names' -> a2w_run s names text [] (Raise E_decode) s
| a2w_exn s names text e names' : finds true names text (FExn e) names' -> a2w_run s names text [] (Raise e) s
| a2w_hang s names text names' : finds true names text FHang names' -> a2w_run s names text [] Diverge s
| a2w_fails s names text n r len more names' x s' : finds true names text (FRec n r len more) names' ->
    turns s r len more x s' -> e_end x <> Ret tt -> a2w_run s names text (e_out x) (e_end x) s
| a2w_short s names text n r len more names' x s' : finds true names text (FRec n r len more) names' ->
    turns s r len more x s' -> e_end x = Ret tt -> (Z.of_nat (List.length (e_text x)) < e_due x)%Z ->
    a2w_run s names text (e_out x) (Raise E_short) s
| a2w_record s names text n r len more names' x s' body after out o s'' : finds true names text (FRec n r len more) names' ->
    turns s r len more x s' -> e_end x = Ret tt -> e_text x = body ++ after -> Z.of_nat (List.length body) = Z.max 0 (e_due x) ->
    a2w_run s' names' after out o s'' -> a2w_run s names text (e_out x ++ out) o s''.
(** several files: the converter keeps what it remembers, but every file starts without field names *)
Inductive a2w_all : memory -> list bytes -> bytes -> outcome unit -> Prop :=
| a2w_none s : a2w_all s [] [] (Ret tt)
| a2w_stop s text texts out o s' : a2w_run s [] text out o s' -> o <> Ret tt -> a2w_all s (text :: texts) out o
| a2w_more s text texts out out2 o s' : a2w_run s [] text out (Ret tt) s' -> a2w_all s' texts out2 o -> a2w_all s (text :: texts) (out ++ out2) o.

(** ** Lemmas *)
Definition tr0 (s : memory) : transformer := mktr (fst s) (text_name output) fields resources responses (snd s).
Lemma tested_any ps url : tested ps url (any_prefix ps (lower url)).
Proof.
  induction ps as [|[p|] ps IH]; cbn [any_prefix].
  - apply tested_no; [intros []|intros (p & t & [] & _)].
  - destruct (startswith p (lower url)) eqn:E.
    + apply startswith_iff in E as [t E]. apply (tested_yes _ _ [] p ps t eq_refl); [intros []|exact E].
    + assert (N : forall t, lower url <> p ++ t) by (intros t Et; assert (startswith p (lower url) = true) by (apply startswith_iff; eauto); congruence).
      assert (B1 : forall q, byte_prefixes q -> byte_prefixes (PBytes p :: q)) by (intros q Hq [Hi|Hi]; [discriminate|exact (Hq Hi)]).
      assert (B2 : forall q, ~ starts_with_one q url -> ~ starts_with_one (PBytes p :: q) url) by (intros q Hq (x & t & [Hi|Hi] & Et); [injection Hi as <-; exact (N t Et)|apply Hq; exists x, t; auto]).
      destruct IH as [before q after t E1 E2 E3|before after E1 E2 E3|E1 E2].
      * apply (tested_yes _ _ (PBytes p :: before) q after t); [rewrite E1; reflexivity|auto|exact E3].
      * apply (tested_text _ _ (PBytes p :: before) after); [rewrite E1; reflexivity|auto|auto].
      * apply tested_no; auto.
  - apply (tested_text _ _ [] ps eq_refl); [intros []|intros (p & t & [] & _)].
Qed.
Lemma any_prefix_app before after url : byte_prefixes before -> ~ starts_with_one before url -> any_prefix (before ++ after) (lower url) = any_prefix after (lower url).
Proof.
  induction before as [|[p|] before IH]; intros H1 H2; cbn [app any_prefix]; [reflexivity| |destruct H1; left; reflexivity].
  destruct (startswith p (lower url)) eqn:E; [destruct H2; apply startswith_iff in E as [t E]; exists p, t; cbn; auto|].
  apply IH; [intro Hi; apply H1; right; exact Hi|]. intros (q & t & Hi & Et). apply H2. exists q, t. cbn. auto.
Qed.
Lemma any_prefix_yes before p after url t : byte_prefixes before -> lower url = p ++ t -> any_prefix (before ++ PBytes p :: after) (lower url) = Ret true.
Proof.
  intros H1 H2. induction before as [|[q|] before IH]; cbn [app any_prefix].
  - assert (startswith p (lower url) = true) as -> by (apply startswith_iff; eauto). reflexivity.
  - destruct (startswith q (lower url)); [reflexivity|]. apply IH. intro Hi. apply H1. right. exact Hi.
  - destruct H1. left. reflexivity.
Qed.
Lemma tested_is ps url o : tested ps url o -> any_prefix ps (lower url) = o.
Proof.
  intros [before p after t -> H1 H2|before after -> H1 H2|H1 H2].
  - exact (any_prefix_yes _ _ _ _ _ H1 H2).
  - rewrite any_prefix_app by assumption. reflexivity.
  - rewrite <- (app_nil_r ps). rewrite any_prefix_app by assumption. reflexivity.
Qed.
Lemma is_http_iff content : is_http_response http_gz content =
  match Http.feed http_gz (Http.new_response [] []) content with
  | Ret (m, more) => Ret (Http.complete (Http.close m) && match more with [] => true | _ => false end)
  | Raise e => Raise e | Diverge => Diverge end.
Proof. unfold is_http_response. destruct (Http.feed _ _ _) as [[m more]|e|]; reflexivity. Qed.
Lemma decided_any s url ct content : decided url ct content (classify http_gz (tr0 s) url ct content).
Proof.
  unfold classify. cbn [tr0 tr_resources tr_responses]. pose proof (tested_any resources url) as T1. destruct (any_prefix resources (lower url)) as [[|]|e|] eqn:E1; cbn [bind].
  - apply decided_resource. exact T1.
  - pose proof (tested_any responses url) as T2. destruct (any_prefix responses (lower url)) as [[|]|e|] eqn:E2; cbn [bind].
    + apply decided_response; assumption.
    + destruct (startswith (B "http") (lower url)) eqn:Eh.
      * apply startswith_iff in Eh as [t Et]. destruct (is_http_response http_gz content) as [[|]|e|] eqn:Ei; cbn [bind].
        -- destruct (is_http_cases _ _ _ Ei) as [[_ Hw]|[X _]]; [|discriminate]. exact (decided_http url ct content t T1 T2 Et Hw).
        -- destruct (is_http_cases _ _ _ Ei) as [[X _]|[_ Hw]]; [discriminate|]. exact (decided_part url ct content t T1 T2 Et Hw).
        -- rewrite is_http_iff in Ei. destruct (Http.feed http_gz (Http.new_response [] []) content) as [[m more]|e'|] eqn:Ef; try discriminate. injection Ei as ->. exact (decided_error url ct content t e T1 T2 Et Ef).
        -- rewrite is_http_iff in Ei. destruct (Http.feed http_gz (Http.new_response [] []) content) as [[m more]|e'|] eqn:Ef; try discriminate. exact (decided_hang url ct content t T1 T2 Et Ef).
      * apply decided_other; try assumption. intros t Et. assert (startswith (B "http") (lower url) = true) by (apply startswith_iff; eauto). congruence.
    + apply decided_text2; assumption.
    + inversion T2.
  - apply decided_text1. exact T1.
  - inversion T1.
Qed.
Lemma decided_is s url ct content o : decided url ct content o -> classify http_gz (tr0 s) url ct content = o.
Proof.
  unfold classify. cbn [tr0 tr_resources tr_responses].
  assert (Hh : forall t, lower url = B "http" ++ t -> startswith (B "http") (lower url) = true) by (intros t Et; apply startswith_iff; eauto).
  intros [T1|e T1|T1 T2|e T1 T2|t T1 T2 Et H|t T1 T2 Et H|t e T1 T2 Et H|t T1 T2 Et H|T1 T2 Hn]; apply tested_is in T1; rewrite T1; cbn [bind]; try reflexivity;
    apply tested_is in T2; rewrite T2; cbn [bind]; try reflexivity; try rewrite (Hh t Et).
  - rewrite (is_http_true _ _ H). reflexivity.
  - rewrite (is_http_false _ _ H). reflexivity.
  - rewrite is_http_iff, H. reflexivity.
  - rewrite is_http_iff, H. reflexivity.
  - destruct (startswith (B "http") (lower url)) eqn:E; [apply startswith_iff in E as [t Et]; destruct (Hn t Et)|]. reflexivity.
Qed.
(** streams behind a head, and behind what was read *)
Definition behind (zip : bool) (st : stream) (names : list bytes) (len : option Z) (text : bytes) : Prop :=
  s_kind st = (if zip then SGzipRecord else SPlain) /\ (exists a, s_parser st = PMixed a /\ a_headers a = names) /\ s_eoc st = len /\
  f_rest (s_fh st) = text /\ f_strict (s_fh st) = true.
Definition left_at (zip : bool) (st : stream) (names : list bytes) (d : Z) (text : bytes) : Prop :=
  behind zip st names (Some d) text \/ (d = 0%Z /\ behind zip st names None text).
Lemma read_all_of zip st names len more : behind zip st names len more ->
  match piece len more with
  | Some (p, rest, d) => exists st', stream_read st None = (Ret p, st') /\ left_at zip st' names d rest
  | None => exists st', stream_read st None = (Raise EValueError, st')
  end.
Proof.
  intros (Hk & (a & Hp & Ha) & He & Hr & Hs). unfold piece. destruct len as [d|].
  - assert (Hi : inside_with (PMixed a) zip true st d more) by (repeat split; assumption).
    assert (Back : forall st' d' t', inside_with (PMixed a) zip true st' d' t' -> left_at zip st' names d' t').
    { intros st' d' t' (A1 & A2 & A3 & A4 & A5). left. repeat split; try assumption. exists a. auto. }
    destruct (0 <=? d)%Z eqn:Ed.
    + destruct (read_piece zip true st d more d Hi ltac:(lia) ltac:(lia)) as (st' & E & Hi').
      assert (E0 : stream_read st None = stream_read st (Some d)) by (unfold stream_read, bounded; rewrite He, Z.min_id; reflexivity).
      rewrite E0, E, Z.min_id in *. exists st'. split; [reflexivity|apply Back; exact Hi'].
    + destruct (d =? -1)%Z eqn:E1.
      * destruct (read_negative zip true st d more Hi ltac:(lia) ltac:(left; lia) None I) as (st' & E & Hi'). exists st'. split; [exact E|apply Back; exact Hi'].
      * destruct (read_refused zip st d more Hi ltac:(lia) None I) as [st' E]. exists st'. exact E.
  - unfold stream_read, bounded. rewrite He. unfold raw_read, f_read_all. rewrite Hr. eexists. split; [reflexivity|]. right. split; [reflexivity|].
    split; [exact Hk|]. split; [exists a; auto|]. split; [cbn [s_eoc count_down set_eoc set_fh]; rewrite He; reflexivity|]. split; [|exact Hs].
    cbn [s_fh count_down set_eoc set_fh]. unfold f_rest, f_advance in *. cbn [f_data f_pos]. rewrite <- skipn_skipn', Hr. apply skipn_all2. lia.
Qed.
Lemma content_piece zip st names len more r : behind zip st names len more -> r_content r = None -> r_cf r = CF_stream ->
  match piece len more with
  | Some (p, rest, d) => exists r' st', rec_content r st = (Ret (get_header r (ct_name r), Some p), r', st') /\ left_at zip st' names d rest
  | None => exists r' st', rec_content r st = (Raise EValueError, r', st')
  end.
Proof.
  intros Hb Hc Hf. pose proof (read_all_of zip st names len more Hb) as R. unfold rec_content. rewrite Hc, Hf. destruct (piece len more) as [[[p rest] d]|].
  - destruct R as (st' & E & Hl). rewrite E. eauto.
  - destruct R as (st' & E). rewrite E. eauto.
Qed.
Lemma warc_copy_is rd more : warc_copy (rd_ws rd ++ rd_tag rd ++ rd_num rd) (rd_headers rd) (due rd) more = copied true gz rd more.
Proof.
  unfold warc_copy, copied, whole, piece. change (negb true) with false. rewrite orb_false_r. destruct (0 <=? due rd)%Z; [rewrite andb_true_r; reflexivity|].
  destruct (due rd =? -1)%Z; [rewrite andb_true_r|]; reflexivity.
Qed.
Definition fresh_rec (r : record) (len : option Z) : Prop :=
  (exists rd, r = rd_record rd /\ len = Some (due rd)) \/
  ((r_class r = RArc \/ exists v ls, r_class r = RArcHeader v ls) /\ r_content r = None /\ r_cf r = CF_stream).
Lemma finds_fresh names text n r len more names' : finds true names text (FRec n r len more) names' -> fresh_rec r len.
Proof.
  intro H. inversion H as [f Hw Hf|f nn Hw Hf]; subst.
  - inversion Hf as [| | | |rd m0 Hra]; subst. left. exists rd. auto.
  - inversion Hf as [|r0 l0 m0 n0 Hra|]; subst. right. inversion Hra; subst; cbn [arc_read_record r_class r_content r_cf]; split; eauto.
Qed.
(** one ARC record *)
Definition when (s : memory) (date : bytes) : option datetime * transformer :=
  match date with [] => (Some (clock (tr_asked (tr0 s))), tick (tr0 s)) | _ => (arc_record_date date, tr0 s) end.
Definition ticks (date : bytes) : nat := match date with [] => 1 | _ => 0 end.
Lemma when_read s date text : date_read (now s) date text -> exists dt, when s date = (Some dt, tr0 (fst s, ticks date + snd s)) /\ warc_datetime_str dt = text.
Proof.
  intro H. apply date_read_iff in H as [[-> ->]|(Hn & dt & E & Et)].
  - exists (clock (snd s)). auto.
  - exists dt. split; [|exact Et]. destruct date as [|c date]; [contradiction|]. unfold when. rewrite E. destruct s; reflexivity.
Qed.
Lemma when_not s date : (forall text, ~ date_read (now s) date text) -> exists t, when s date = (None, t).
Proof.
  intro H. destruct date as [|c date]; [destruct (H (now s)); apply DateNow|]. exists (tr0 s). unfold when. destruct (arc_record_date (c :: date)) as [dt|] eqn:E; [|reflexivity].
  destruct (H (warc_datetime_str dt)). apply date_read_iff. right. split; [discriminate|eauto].
Qed.
Lemma ip_is (r : record) : match get_header r ARC_IP with
    | Some ((_ :: _) as v) => if bytes_eqb (strip v) (B "0.0.0.0") then [] else [(WARC_IP, Some (strip v))]
    | _ => [] end = map (fun h : header => (fst h, Some (snd h))) (ip_header (r_headers r)).
Proof.
  unfold ip_header, get_header. rewrite lookup_first. change ARC_IP with (B "IP-address"). 
  destruct (first_header (B "IP-address") (r_headers r)) as [[|c v]|]; try reflexivity. destruct (bytes_eqb (strip (c :: v)) (B "0.0.0.0")); reflexivity.
Qed.
Lemma arc_url r : r_class r = RArc \/ (exists v ls, r_class r = RArcHeader v ls) -> rec_url r = first_header (B "URL") (r_headers r).
Proof. intros [H|(v & ls & H)]; unfold rec_url, url_name, is_warc, get_header; rewrite lookup_first, H; reflexivity. Qed.
Lemma arc_date_of r : r_class r = RArc \/ (exists v ls, r_class r = RArcHeader v ls) -> rec_date r = first_header (B "Archive-date") (r_headers r).
Proof. intros [H|(v & ls & H)]; unfold rec_date, date_name, is_warc, get_header; rewrite lookup_first, H; reflexivity. Qed.
Lemma arc_ct r : r_class r = RArc \/ (exists v ls, r_class r = RArcHeader v ls) -> get_header r (ct_name r) = first_header (B "Content-type") (r_headers r).
Proof. intros [H|(v & ls & H)]; unfold ct_name, is_warc, get_header; rewrite lookup_first, H; reflexivity. Qed.
Definition steps (zip : bool) (st : stream) (r : record) (names : list bytes) (out : bytes) (s : memory) (x : effect) (s' : memory) : Prop :=
  exists t' st', a2w_body http_gz uuid clock gz (tr0 s, out) st r = (e_end x, (t', out ++ e_out x), st') /\
    (e_end x = Ret tt -> t' = tr0 s' /\ left_at zip st' names (e_due x) (e_text x)).
Lemma writable_broken hs n hs2 : writable (map (fun h : header => (fst h, Some (snd h))) hs ++ (n, None) :: hs2) = (hs, false).
Proof. induction hs as [|[m v] hs IH]; [reflexivity|]. cbn [map app writable fst snd]. rewrite IH. reflexivity. Qed.
Lemma write_broken out st hs n hs2 ct body : write_headers false CRLF hs = concat (map header_text hs) -> write_draft gz out st (mkdraft (map (fun h : header => (fst h, Some (snd h))) hs ++ (n, None) :: hs2) ct body) =
  (Raise ETypeError, out ++ broken_off hs, st).
Proof.
  intro H. unfold write_draft. cbn [df_headers]. rewrite writable_broken. unfold broken_off. rewrite H. destruct gz; reflexivity.
Qed.
Lemma arc_step zip st names r len more s x s' out : behind zip st names len more -> r_class r = RArc -> r_content r = None -> r_cf r = CF_stream ->
  arc_turns s (r_headers r) len more x s' -> steps zip st r names out s x s'.
Proof.
  intros Hb Hc Hn Hf H. pose proof (content_piece zip st names len more r Hb Hn Hf) as C.
  unfold steps, a2w_body, convert, convert_record. assert (Ew : is_warc r = false) by (unfold is_warc; rewrite Hc; reflexivity). rewrite Ew.
  assert (Et : is_some_eq (rec_type r) V_FILEDESC = false) by (unfold rec_type; rewrite Hc; reflexivity). rewrite Et. rewrite ip_is.
  rewrite (arc_url r (or_introl Hc)), (arc_date_of r (or_introl Hc)). rewrite (arc_ct r (or_introl Hc)) in C.
  destruct H as [[H|H]|url date Eu Ed Hd|url date text Eu Ed Hd Hp|url date text p Eu Ed Hd Hp Ect|url date text p rest d ct o Eu Ed Hd Hp Ect Hk Ho
    |url date text p rest d ct type ct' Eu Ed Hd Hp Ect Hk Ho|url date text p rest d ct type ct' info Eu Ed Hd Hp Ect Hk Ho].
  - rewrite H. cbn [stop e_end e_out]. rewrite app_nil_r. do 2 eexists. split; [reflexivity|discriminate].
  - rewrite H. cbn [stop e_end e_out]. rewrite app_nil_r. destruct (first_header (B "URL") (r_headers r)); do 2 eexists; (split; [reflexivity|discriminate]).
  - rewrite Eu, Ed. fold (when s date). destruct (when_not s date Hd) as [t E]. rewrite E. cbn [stop e_end e_out]. rewrite app_nil_r. do 2 eexists. split; [reflexivity|discriminate].
  - rewrite Eu, Ed. fold (when s date). destruct (when_read s date text Hd) as (dt & E & <-). rewrite E. rewrite Hp in C. destruct C as (r' & st' & C). rewrite C.
    cbn [stop e_end e_out]. rewrite app_nil_r. do 2 eexists. split; [reflexivity|discriminate].
  - rewrite Eu, Ed. fold (when s date). destruct (when_read s date text Hd) as (dt & E & <-). rewrite E. rewrite Hp in C. destruct p as [[p rest] d]. destruct C as (r' & st' & C & _). rewrite C, Ect.
    cbn [stop e_end e_out]. rewrite app_nil_r. do 2 eexists. split; [reflexivity|discriminate].
  - rewrite Eu, Ed. fold (when s date). destruct (when_read s date text Hd) as (dt & E & <-). rewrite E. rewrite Hp in C. destruct C as (r' & st' & C & _). rewrite C, Ect.
    rewrite known_type_eq, (decided_is _ _ _ _ _ Hk). cbn [stop e_end e_out]. rewrite app_nil_r. destruct o as [o|e|]; [destruct Ho| |]; do 2 eexists; (split; [reflexivity|discriminate]).
  - rewrite Eu, Ed. fold (when s date). destruct (when_read s date text Hd) as (dt & E & <-). rewrite E. rewrite Hp in C. destruct C as (r' & st' & C & _). rewrite C, Ect.
    rewrite known_type_eq, (decided_is _ _ _ _ _ Hk). cbn [tr0 tr_id fst]. rewrite Ho. cbn [write_drafts app].
    match goal with |- context [write_draft gz out st' (mkdraft (_ :: _ :: (?n, None) :: ?hs2) ?c ?b)] =>
      pose proof (write_broken out st' [(B "WARC-Record-ID", uuid (url ++ date)); (B "WARC-Target-URI", url)] n hs2 c b eq_refl) as W end.
    match goal with |- context [write_draft gz out st' ?d] => match type of W with write_draft _ _ _ ?d' = _ => change d with d' end end.
    rewrite W. cbn [stop e_end e_out]. do 2 eexists. split; [reflexivity|discriminate].
  - rewrite Eu, Ed. fold (when s date). destruct (when_read s date text Hd) as (dt & E & <-). rewrite E. rewrite Hp in C. destruct C as (r' & st' & C & Hl). rewrite C, Ect.
    rewrite known_type_eq, (decided_is _ _ _ _ _ Hk). cbn [tr0 tr_id fst]. rewrite Ho. cbn [write_drafts].
    pose proof (write_draft_ok gz out st' ([(B "WARC-Record-ID", uuid (url ++ date)); (B "WARC-Target-URI", url); (B "WARC-Warcinfo-ID", info)]
          ++ ip_header (r_headers r) ++ [(B "WARC-Date", warc_datetime_str dt); (B "WARC-Type", type)]) ct' p) as W.
    unfold draft_of in W. rewrite !map_app in W. cbn [map fst snd] in W.
    match goal with |- context [write_draft gz out st' ?d] => match type of W with write_draft _ _ _ ?d' = _ => change d with d' end end.
    rewrite W. do 2 eexists. cbn [e_end e_out written map concat]. rewrite app_nil_r. split; [reflexivity|]. intros _. cbn [e_due e_text]. split; [|exact Hl].
    unfold asks. rewrite Ed. unfold ticks. unfold tr0. cbn [fst snd]. destruct date; reflexivity.
Qed.
(** one filedesc record *)
Definition meta_when (s : memory) (date : option bytes) : outcome bytes :=
  match date with
  | Some ((_ :: _) as d) => match arc_filedesc_date d with Some dt => Ret (warc_datetime_str dt) | None => Raise EValueError end
  | _ => Ret (now s)
  end.
Lemma meta_read s date text : desc_date_read (now s) date text -> meta_when s (Some date) = Ret text.
Proof.
  intro H. apply desc_date_read_iff in H as [[-> ->]|(Hn & dt & E & <-)]; [reflexivity|]. destruct date as [|c date]; [contradiction|]. unfold meta_when. rewrite E. reflexivity.
Qed.
Lemma meta_not s date : (forall text, ~ desc_date_read (now s) date text) -> meta_when s (Some date) = Raise EValueError.
Proof.
  intro H. destruct date as [|c date]; [destruct (H (now s)); apply DescNone|]. unfold meta_when. destruct (arc_filedesc_date (c :: date)) as [dt|] eqn:E; [|reflexivity].
  destruct (H (warc_datetime_str dt)). apply desc_date_read_iff. right. split; [discriminate|eauto].
Qed.
Lemma desc_step zip st names r v ls len more s x s' out : behind zip st names len more -> r_class r = RArcHeader v ls -> r_content r = None -> r_cf r = CF_stream ->
  desc_turns s (r_headers r) (concat ls) len more x s' -> steps zip st r names out s x s'.
Proof.
  intros Hb Hc Hn Hf H. pose proof (content_piece zip st names len more r Hb Hn Hf) as C.
  assert (Hcl : r_class r = RArc \/ exists v ls, r_class r = RArcHeader v ls) by eauto.
  unfold steps, a2w_body, convert, convert_filedesc. assert (Ew : is_warc r = false) by (unfold is_warc; rewrite Hc; reflexivity). rewrite Ew.
  assert (Et : is_some_eq (rec_type r) V_FILEDESC = true) by (unfold rec_type; rewrite Hc; reflexivity). rewrite Et.
  change (warc_datetime_str (clock (tr_asked (tr0 s)))) with (now s). rewrite (arc_url r Hcl), (arc_date_of r Hcl). rewrite (arc_ct r Hcl) in C.
  fold (meta_when s (first_header (B "Archive-date") (r_headers r))). unfold arc_raw. rewrite Hc. cbn [tr0 tr_output tr_fields].
  destruct H as [H|url date Eu Ed Hd|url Eu Ed|url date text Eu Ed Hd Hp|url date text p Eu Ed Hd Hp Ho|url date text p rest d name Eu Ed Hd Hp Ho Hna info].
  - rewrite H. cbn [stop e_end e_out]. rewrite app_nil_r. do 2 eexists. split; [reflexivity|discriminate].
  - rewrite Eu, Ed, (meta_not _ _ Hd). cbn [stop e_end e_out]. rewrite app_nil_r. do 2 eexists. split; [reflexivity|discriminate].
  - rewrite Eu, Ed. cbn [meta_when stop e_end e_out]. rewrite app_nil_r. do 2 eexists. split; [reflexivity|discriminate].
  - rewrite Eu, Ed, (meta_read _ _ _ Hd). rewrite Hp in C. destruct C as (r' & st' & C). rewrite C. cbn [stop e_end e_out]. rewrite app_nil_r. do 2 eexists. split; [reflexivity|discriminate].
  - rewrite Eu, Ed, (meta_read _ _ _ Hd). rewrite Hp in C. destruct p as [[p rest] d]. destruct C as (r' & st' & C & _). rewrite C, Ho. cbn [text_name write_drafts app].
    match goal with |- context [write_draft gz out st' (mkdraft (_ :: _ :: _ :: (?n, None) :: ?hs2) ?c ?b)] =>
      pose proof (write_broken out st' [(B "WARC-Type", B "warcinfo"); (B "WARC-Record-ID", uuid (url ++ now s)); (B "WARC-Date", now s)] n hs2 c b eq_refl) as W end.
    match goal with |- context [write_draft gz out st' ?d] => match type of W with write_draft _ _ _ ?d' = _ => change d with d' end end.
    rewrite W. cbn [stop e_end e_out]. do 2 eexists. split; [reflexivity|discriminate].
  - rewrite Eu, Ed, (meta_read _ _ _ Hd). rewrite Hp in C. destruct C as (r' & st' & C & Hl). rewrite C, Ho. cbn [text_name write_drafts app].
    pose proof (write_draft_ok gz out st' [(B "WARC-Type", B "warcinfo"); (B "WARC-Record-ID", info); (B "WARC-Date", now s)] (B "application/warc-fields") fields) as W1.
    match goal with |- context [write_draft gz out st' ?d] => match type of W1 with write_draft _ _ _ ?d' = _ => change d with d' end end. rewrite W1.
    assert (En : (if startswith FILEDESC_URL url then skipn 11 url else url) = name).
    { change FILEDESC_URL with (B "filedesc://"). destruct Hna as [ -> |[Hno -> ]].
      - assert (E : startswith (B "filedesc://") (B "filedesc://" ++ name) = true) by (apply startswith_iff; eauto). rewrite E. reflexivity.
      - destruct (startswith (B "filedesc://") url) eqn:E; [|reflexivity]. apply startswith_iff in E as [t E]. destruct (Hno t E). }
    rewrite En.
    match goal with |- context [write_draft gz ?o st' ?d] =>
      pose proof (write_draft_ok gz o st' [(B "WARC-Type", B "metadata"); (B "WARC-Concurrent-To", info); (B "WARC-Record-ID", uuid (url ++ date ++ B "-meta"));
            (B "WARC-Target-URI", name); (B "WARC-Date", text); (B "WARC-Warcinfo-ID", info)] (B "application/arc") (concat ls ++ p)) as W2;
      match type of W2 with write_draft _ _ _ ?d' = _ => change d with d' end end. rewrite W2.
    do 2 eexists. cbn [e_end e_out written map concat]. rewrite app_nil_r, (app_assoc out). split; [reflexivity|]. intros _. cbn [e_due e_text]. split; [reflexivity|exact Hl].
Qed.
Lemma turn_step zip st names r len more s x s' out : behind zip st names len more -> fresh_rec r len -> turns s r len more x s' -> steps zip st r names out s x s'.
Proof.
  intros Hb Hf H. destruct H as [v d Hc ->|x s' Hc H|v ls x s' Hc H].
  - destruct Hf as [(rd & -> & E)|[[Hc'|(v' & ls & Hc')] _]]; [|congruence|congruence]. injection E as ->. cbn [rd_record r_class] in Hc. injection Hc as <-.
    change (r_headers (rd_record rd)) with (rd_headers rd). rewrite warc_copy_is. destruct Hb as (Hk & (a & Hp & Ha) & He & Hr & Hs).
    assert (Hi : inside_with (PMixed a) zip true st (due rd) more) by (repeat split; assumption).
    destruct (emit_copied zip true gz rd more out st Hi) as (_ & st' & E & Hi'). unfold steps, a2w_body. change (is_warc (rd_record rd)) with true. cbn iota. rewrite E.
    do 2 eexists. split; [reflexivity|]. intro He'. split; [reflexivity|]. destruct (Hi' He') as (A1 & A2 & A3 & A4 & A5). left. repeat split; try assumption. exists a. auto.
  - destruct Hf as [(rd & -> & E)|(_ & Hn & Hcf)]; [discriminate|]. exact (arc_step zip st names r len more s x s' out Hb Hc Hn Hcf H).
  - destruct Hf as [(rd & -> & E)|(_ & Hn & Hcf)]; [discriminate|]. exact (desc_step zip st names r v ls len more s x s' out Hb Hc Hn Hcf H).
Qed.
(** there is always an effect *)
Lemma date_read_dec now0 date : (exists text, date_read now0 date text) \/ (forall text, ~ date_read now0 date text).
Proof.
  destruct date as [|c date]; [left; exists now0; apply DateNow|]. destruct (arc_record_date (c :: date)) as [dt|] eqn:E.
  - left. exists (warc_datetime_str dt). apply date_read_iff. right. split; [discriminate|eauto].
  - right. intros text H. apply date_read_iff in H as [[H _]|(_ & dt & E' & _)]; [discriminate|congruence].
Qed.
Lemma desc_date_read_dec now0 date : (exists text, desc_date_read now0 date text) \/ (forall text, ~ desc_date_read now0 date text).
Proof.
  destruct date as [|c date]; [left; exists now0; apply DescNone|]. destruct (arc_filedesc_date (c :: date)) as [dt|] eqn:E.
  - left. exists (warc_datetime_str dt). apply desc_date_read_iff. right. split; [discriminate|eauto].
  - right. intros text H. apply desc_date_read_iff in H as [[H _]|(_ & dt & E' & _)]; [discriminate|congruence].
Qed.
Lemma archive_name_total url : exists name, archive_name url name.
Proof.
  destruct (startswith (B "filedesc://") url) eqn:E; [apply startswith_iff in E as [t E]; exists t; left; exact E|]. exists url. right. split; [|reflexivity].
  intros t Et. assert (startswith (B "filedesc://") url = true) by (apply startswith_iff; eauto). congruence.
Qed.
Lemma turns_total s r len more : fresh_rec r len -> exists x s', turns s r len more x s'.
Proof.
  intros [(rd & -> & ->)|[[Hc|(v & ls & Hc)] _]].
  - do 2 eexists. eapply turns_warc; reflexivity.
  - assert (G : exists x s', arc_turns s (r_headers r) len more x s'); [|destruct G as (x & s' & G); exists x, s'; apply turns_arc; assumption].
    destruct (first_header (B "URL") (r_headers r)) as [url|] eqn:Eu; [|do 2 eexists; apply arc_no_field; auto].
    destruct (first_header (B "Archive-date") (r_headers r)) as [date|] eqn:Ed; [|do 2 eexists; apply arc_no_field; auto].
    destruct (date_read_dec (now s) date) as [[text Hd]|Hd]; [|do 2 eexists; eapply arc_bad_date; eassumption].
    destruct (piece len more) as [[[p rest] d]|] eqn:Hp; [|do 2 eexists; eapply arc_refused; eassumption].
    destruct (first_header (B "Content-type") (r_headers r)) as [ct|] eqn:Ect; [|do 2 eexists; eapply arc_no_type; eassumption].
    pose proof (decided_any s url (known_type ct) p) as Hk. destruct (classify http_gz (tr0 s) url (known_type ct) p) as [[type ct']|e|].
    + destruct (fst s) as [info|] eqn:Ei; [do 2 eexists; eapply arc_turned; eassumption|do 2 eexists; eapply arc_no_info; eassumption].
    + do 2 eexists. eapply arc_undecided; try eassumption. exact I.
    + do 2 eexists. eapply arc_undecided; try eassumption. exact I.
  - assert (G : exists x s', desc_turns s (r_headers r) (concat ls) len more x s'); [|destruct G as (x & s' & G); exists x, s'; eapply turns_desc; eassumption].
    destruct (first_header (B "URL") (r_headers r)) as [url|] eqn:Eu; [|do 2 eexists; apply desc_no_url; auto].
    destruct (first_header (B "Archive-date") (r_headers r)) as [date|] eqn:Ed; [|do 2 eexists; eapply desc_no_date; eassumption].
    destruct (desc_date_read_dec (now s) date) as [[text Hd]|Hd]; [|do 2 eexists; eapply desc_bad_date; eassumption].
    destruct (piece len more) as [[[p rest] d]|] eqn:Hp; [|do 2 eexists; eapply desc_refused; eassumption].
    destruct output eqn:Eo; [do 2 eexists; eapply desc_named; eassumption|]. destruct (archive_name_total url) as [name Hna]. do 2 eexists. eapply desc_turned; eassumption.
Qed.
Lemma piece_shorter len more p rest d : piece len more = Some (p, rest, d) -> List.length rest <= List.length more.
Proof.
  unfold piece. destruct len as [z|]; [|intro H; injection H as _ <- _; cbn; lia]. destruct (0 <=? z)%Z; [intro H; injection H as _ <- _; rewrite skipn_length; lia|].
  destruct (z =? -1)%Z; [intro H; injection H as _ <- _; cbn; lia|discriminate].
Qed.
Lemma turns_shorter s r len more x s' : turns s r len more x s' -> List.length (e_text x) <= List.length more.
Proof.
  intros [v d _ _|y t _ H|v ls y t _ H].
  - unfold warc_copy. destruct (piece (Some d) more) as [[[p rest] d']|] eqn:E; [|cbn; lia]. destruct (_ && _); [cbn; lia|]. exact (piece_shorter _ _ _ _ _ E).
  - destruct H; try (cbn; lia). cbn [e_text]. eapply piece_shorter. eassumption.
  - destruct H; try (cbn; lia). cbn [e_text]. eapply piece_shorter. eassumption.
Qed.
Lemma left_next zip st names d body after : left_at zip st names d (body ++ after) -> Z.of_nat (List.length body) = Z.max 0 d ->
  exists st0 pos, read_record st false = read_record st0 false /\ ready_any true zip st0 pos after names /\ f_strict (s_fh st0) = true.
Proof.
  intros [(Hk & Hp & He & Hr & Hs)|(-> & Hk & Hp & He & Hr & Hs)] Hd.
  - destruct (Z_le_gt_dec d 0) as [L|L].
    + assert (List.length body = 0) as Hb by lia. destruct body; [|discriminate]. exists (fresh st), (f_pos (s_fh st)). split; [apply (read_record_none _ _ d); assumption|].
      split; [|exact Hs]. repeat split; assumption.
    + assert (He' : s_eoc st = Some (Z.of_nat (List.length body))) by (rewrite He; f_equal; lia).
      exists (fresh (adv st (List.length body))), (f_pos (s_fh st) + List.length body). split; [exact (read_record_skip _ _ _ _ He' Hr)|]. split; [|exact Hs].
      repeat split; [exact Hk|exact Hp|]. change (f_rest (s_fh (fresh ?s))) with (rest s). exact (rest_adv_app _ _ _ Hr).
  - assert (List.length body = 0) as Hb by lia. destruct body; [|discriminate]. exists st, (f_pos (s_fh st)). split; [reflexivity|]. split; [repeat split; assumption|exact Hs].
Qed.
Lemma left_short zip st names d text : left_at zip st names d text -> (Z.of_nat (List.length text) < d)%Z -> exists st', read_record st false = (Raise E_short, st').
Proof.
  intros [(Hk & Hp & He & Hr & Hs)|(-> & _)] L; [|lia]. apply (read_record_short st false (Z.to_nat d)); [rewrite He; f_equal; lia|]. change (rest st) with (f_rest (s_fh st)). rewrite Hr. lia.
Qed.
Definition a2w_body0 := a2w_body http_gz uuid clock gz.
Lemma a2w_loop zip s names text out o s' : a2w_run s names text out o s' -> Forall plain_value names -> forall fuel st st0 pos acc,
  read_record st false = read_record st0 false -> ready_any true zip st0 pos text names -> f_strict (s_fh st0) = true -> List.length text < fuel ->
  exists t' st', iter_loop fuel a2w_body0 (tr0 s, acc) st = (o, (t', acc ++ out), st') /\ (o = Ret tt -> t' = tr0 s').
Proof.
  induction 1 as [s names text n names' H|s names text n e es names' H|s names text e names' H|s names text names' H|s names text n r len more names' x s' H Ht Hx
    |s names text n r len more names' x s' H Ht Hx Hlt|s names text n r len more names' x s' body after out o s'' H Ht Hx Etx Hbd Hrun IH];
    intros Hpn fuel st st0 pos acc Hst Hrd Hstr Hfu; (destruct fuel as [|fuel]; [lia|]); cbn [iter_loop]; rewrite Hst;
    destruct (any_answers true zip st0 _ _ false _ _ _ Hrd Hpn H) as (A & Hpn' & Hp');
    pose proof (proj1 (read_record_later st0 false)) as (_ & Hstr' & _); rewrite Hstr in Hstr';
    destruct (read_record st0 false) as [y st1]; cbn [answers fst snd] in A, Hp', Hstr'.
  - subst y. rewrite app_nil_r. eauto.
  - subst y. rewrite app_nil_r. do 2 eexists. split; [reflexivity|discriminate].
  - subst y. rewrite app_nil_r. do 2 eexists. split; [reflexivity|discriminate].
  - subst y. rewrite app_nil_r. do 2 eexists. split; [reflexivity|discriminate].
  - destruct A as (-> & He & Hr & _ & Hk). assert (Hb : behind zip st1 names' len more) by (repeat split; assumption).
    destruct (turn_step zip st1 names' r len more s x s' acc Hb (finds_fresh _ _ _ _ _ _ _ H) Ht) as (t' & st2 & E & _). unfold a2w_body0 in *. rewrite E.
    destruct (e_end x) as [[]|e|]; [congruence| |]; do 2 eexists; (split; [reflexivity|discriminate]).
  - destruct A as (-> & He & Hr & _ & Hk). assert (Hb : behind zip st1 names' len more) by (repeat split; assumption).
    destruct (turn_step zip st1 names' r len more s x s' acc Hb (finds_fresh _ _ _ _ _ _ _ H) Ht) as (t' & st2 & E & H2). unfold a2w_body0 in *. rewrite E, Hx. destruct (H2 Hx) as [_ Hl].
    pose proof (finds_uses _ _ _ _ _ _ _ _ H) as Hu. destruct fuel as [|fuel]; [lia|]. cbn [iter_loop]. destruct (left_short _ _ _ _ _ Hl Hlt) as [st3 E3]. rewrite E3.
    do 2 eexists. split; [reflexivity|discriminate].
  - destruct A as (-> & He & Hr & _ & Hk). assert (Hb : behind zip st1 names' len more) by (repeat split; assumption).
    destruct (turn_step zip st1 names' r len more s x s' acc Hb (finds_fresh _ _ _ _ _ _ _ H) Ht) as (t' & st2 & E & H2). unfold a2w_body0 in *. rewrite E, Hx. destruct (H2 Hx) as [-> Hl].
    pose proof (finds_uses _ _ _ _ _ _ _ _ H) as Hu. pose proof (turns_shorter _ _ _ _ _ _ Ht) as Hsh. rewrite Etx in Hl, Hsh. rewrite app_length in Hsh.
    destruct (left_next _ _ _ _ _ _ Hl Hbd) as (st3 & pos3 & E3 & Hrd3 & Hs3). rewrite app_assoc.
    apply (IH Hpn' fuel st2 st3 pos3 (acc ++ e_out x) E3 Hrd3 Hs3). lia.
Qed.
Lemma a2w_total : forall n s names text, List.length text <= n -> exists out o s', a2w_run s names text out o s'.
Proof.
  induction n as [n IH] using lt_wf_ind. intros s names text Hn. destruct (finds_total true names text) as (f & names' & H).
  destruct f as [k errs|k r len more|e|].
  - destruct errs as [|e es]; do 3 eexists; [eapply a2w_end|eapply a2w_junk]; exact H.
  - destruct (turns_total s r len more (finds_fresh _ _ _ _ _ _ _ H)) as (x & s' & Ht).
    assert (De : e_end x = Ret tt \/ e_end x <> Ret tt) by (destruct (e_end x) as [[]|e|]; [left; reflexivity|right; discriminate|right; discriminate]).
    destruct De as [De|De]; [|do 3 eexists; eapply a2w_fails; eassumption].
    destruct (Z_lt_ge_dec (Z.of_nat (List.length (e_text x))) (e_due x)) as [L|L]; [do 3 eexists; eapply a2w_short; eassumption|].
    set (j := Z.to_nat (Z.max 0 (e_due x))). pose proof (finds_uses _ _ _ _ _ _ _ _ H) as Hu. pose proof (turns_shorter _ _ _ _ _ _ Ht) as Hsh.
    destruct (IH (List.length (skipn j (e_text x))) ltac:(rewrite skipn_length; lia) s' names' (skipn j (e_text x)) (le_n _)) as (out & o & s'' & Hrun).
    do 3 eexists. eapply a2w_record; [exact H|exact Ht|exact De|symmetry; apply firstn_skipn| |exact Hrun]. rewrite firstn_length. lia.
  - do 3 eexists. eapply a2w_exn. exact H.
  - do 3 eexists. eapply a2w_hang. exact H.
Qed.
Lemma all_total : forall texts s, exists out o, a2w_all s texts out o.
Proof.
  induction texts as [|text texts IH]; intro s; [do 2 eexists; constructor|]. destruct (a2w_total (List.length text) s [] text (le_n _)) as (out & o & s' & H).
  destruct o as [[]|e|]; [|do 2 eexists; eapply a2w_stop; [exact H|discriminate]|do 2 eexists; eapply a2w_stop; [exact H|discriminate]].
  destruct (IH s') as (out2 & o2 & H2). do 2 eexists. eapply a2w_more; eassumption.
Qed.
Lemma open_mixed_any gunzip i text : file_holds gunzip i text ->
  exists zip st, open_mixed gunzip i = Ret st /\ ready_any true zip st 0 text [] /\ f_strict (s_fh st) = true.
Proof.
  intro H. assert (E : exists k, open_mixed gunzip i = Ret (new_stream k (mkfile text 0 true) (PMixed arc_init)) /\ k <> SGzipFile).
  { destruct H as [(Hn & Hd & <-)|(H & <-)]; unfold open_mixed, open_stream.
    - exists SPlain. split; [|discriminate]. assert (E : endswith (B ".gz") (in_name i) = false).
      { destruct (endswith (B ".gz") (in_name i)) eqn:E; [|reflexivity]. apply endswith_iff in E as [t E]. destruct (Hn t E). }
      rewrite E. destruct (C25_gzip_detection (mkfile (in_data i) 0 true)) as [Hs Hg].
      destruct (is_gzip_file (mkfile (in_data i) 0 true)) as [b f'] eqn:Ei. cbn [fst snd] in *. subst f'.
      destruct b; [|reflexivity]. destruct Hg as [Hg _]. destruct (Hg eq_refl) as [t Ht]. destruct (Hd t Ht).
    - exists SGzipRecord. split; [|discriminate]. destruct (endswith (B ".gz") (in_name i)) eqn:E; [reflexivity|].
      assert (Hd : exists t, in_data i = [31; 139]%N ++ t).
      { destruct H as [[t H]|H]; [|exact H]. rewrite H in E. assert (endswith (B ".gz") (t ++ B ".gz") = true) by (apply endswith_iff; eauto). congruence. }
      destruct (C25_gzip_detection (mkfile (in_data i) 0 true)) as [Hs Hg].
      destruct (is_gzip_file (mkfile (in_data i) 0 true)) as [b f'] eqn:Ei. cbn [fst snd] in *. subst f'.
      destruct Hg as [_ Hg]. rewrite (Hg Hd). reflexivity. }
  destruct E as (k & E & Hk). destruct k; [exists false|exists true|congruence]; eexists; (split; [exact E|]); (split; [|reflexivity]); repeat split; exists arc_init; auto.
Qed.
Lemma a2w_files_follow gunzip files texts s out o : a2w_all s texts out o -> Forall2 (file_holds gunzip) files texts -> forall acc,
  exists t', a2w_files gunzip http_gz uuid clock gz files (tr0 s, acc) = (o, (t', acc ++ out)).
Proof.
  intro H. revert files. induction H as [s|s text texts out o s' Hr Ho|s text texts out out2 o s' Hr Hall IH]; intros files Hf acc; inversion Hf as [|i ? files' ? Hi Hf']; subst; cbn [a2w_files].
  - rewrite app_nil_r. eauto.
  - destruct (open_mixed_any _ _ _ Hi) as (zip & st & Eo & Hrd & Hs). rewrite Eo. unfold for_records.
    destruct (a2w_loop zip _ _ _ _ _ _ Hr (Forall_nil _) (file_fuel (s_fh st)) st st 0 acc eq_refl Hrd Hs) as (t' & st' & E & _).
    { pose proof (rest_fuel st) as F. destruct Hrd as (_ & _ & _ & _ & Hrr). unfold StreamFacts.rest in F. rewrite Hrr in F. exact F. }
    unfold a2w_body0 in E. rewrite E. destruct o as [[]|e|]; [congruence|eauto|eauto].
  - destruct (open_mixed_any _ _ _ Hi) as (zip & st & Eo & Hrd & Hs). rewrite Eo. unfold for_records.
    destruct (a2w_loop zip _ _ _ _ _ _ Hr (Forall_nil _) (file_fuel (s_fh st)) st st 0 acc eq_refl Hrd Hs) as (t' & st' & E & Ht).
    { pose proof (rest_fuel st) as F. destruct Hrd as (_ & _ & _ & _ & Hrr). unfold StreamFacts.rest in F. rewrite Hrr in F. exact F. }
    unfold a2w_body0 in E. rewrite E, (Ht eq_refl). rewrite app_assoc. apply IH. exact Hf'.
Qed.
End Any.

(** ** C79 *)
(** what arc2warc writes and how it ends, for any files: plain or compressed, in any mixture of formats, well formed or not *)
Theorem C79_any_files : forall gunzip http_gz uuid clock gz output fields resources responses files texts out o,
  Forall2 (file_holds gunzip) files texts ->
  (a2w_all uuid clock http_gz gz output fields resources responses (None, 0) texts out o <->
   arc2warc gunzip http_gz uuid clock gz output fields resources responses files = (o, out)).
Proof.
  intros gunzip hg uuid clock gz output fields res rsp files texts out o Hf. unfold arc2warc.
  assert (G : forall out o, a2w_all uuid clock hg gz output fields res rsp (None, 0) texts out o ->
    match a2w_files gunzip hg uuid clock gz files (new_transformer (text_name output) fields res rsp, []) with (o0, (_, out0)) => (o0, out0) end = (o, out)).
  { intros out1 o1 H. destruct (a2w_files_follow _ _ _ _ _ _ _ _ gunzip files texts _ _ _ H Hf []) as [t' E]. 
    change (new_transformer (text_name output) fields res rsp) with (tr0 output fields res rsp (None, 0)).
    match goal with |- (match ?x with _ => _ end) = _ => replace x with (o1, (t', out1)) by (symmetry; exact E) end. reflexivity. }
  split; [apply G|]. intro E. destruct (all_total uuid clock hg gz output fields res rsp texts (None, 0)) as (out1 & o1 & H). pose proof (G _ _ H) as E1. rewrite E in E1. injection E1 as -> ->. exact H.
Qed.
(** and there is exactly one answer *)
Theorem C79_one_answer : forall uuid clock http_gz gz output fields resources responses texts,
  exists out o, a2w_all uuid clock http_gz gz output fields resources responses (None, 0) texts out o /\
    forall out' o', a2w_all uuid clock http_gz gz output fields resources responses (None, 0) texts out' o' -> out' = out /\ o' = o.
Proof.
  intros uuid clock hg gz output fields res rsp texts. destruct (all_total uuid clock hg gz output fields res rsp texts (None, 0)) as (out & o & H). exists out, o. split; [exact H|]. intros out' o' H'.
  set (gunzip := fun b : bytes => skipn 2 b). set (files := map (fun t => mkin (B "x.gz") ([31; 139]%N ++ t)) texts).
  assert (Hf : Forall2 (file_holds gunzip) files texts).
  { unfold files. induction texts as [|t texts IH]; [constructor|]. cbn [map]. constructor; [right; split; [right; exists t; reflexivity|reflexivity]|].
    clear. induction texts as [|t texts IH]; [constructor|]. cbn [map]. constructor; [right; split; [right; exists t; reflexivity|reflexivity]|exact IH]. }
  apply (C79_any_files gunzip hg uuid clock gz output fields res rsp files texts _ _ Hf) in H, H'. rewrite H in H'. injection H' as -> ->. auto.
Qed.
(** a concrete case: a filedesc record, an ARC record, a WARC record, an ARC record with a seven-digit date, and one whose length is unknown (it takes
    the rest of the file); then a second file with a record before any filedesc *)
Definition odd_text : bytes :=
  B "filedesc://a.arc 1.2.3.4 20200101000000 text/plain 63" ++ [LF] ++ B "1 0 IA" ++ [LF] ++ B "URL IP-address Archive-date Content-type Archive-length" ++ [LF] ++
  B "dns:h.org 1.2.3.4 20200102030405 text/dns 2" ++ [LF] ++ B "hi" ++ [LF] ++
  B "WARC/1.0" ++ CRLF ++ B "Content-Length: 1" ++ CRLF ++ CRLF ++ B "x" ++ CRLF ++ CRLF ++
  B "dns:h.org 0.0.0.0 2020131 text/dns 1" ++ [LF] ++ B "!" ++ [LF] ++
  B "dns:h.org 0.0.0.0 20200102030405 text/dns none" ++ [LF] ++ B "the rest" ++ [LF].
Definition odd_text2 : bytes := B "dns:h.org 1.2.3.4 20200102030405 text/dns 2" ++ [LF] ++ B "hi" ++ [LF].
Definition odd_files : list input := [mkin (B "a.arc") odd_text; mkin (B "b.arc") odd_text2].
Example C79_hypotheses_met :
  Forall2 (file_holds (fun x => x)) odd_files [odd_text; odd_text2] /\
  exists out e, a2w_all ex_uuid ex_clock no_gz None false (B "f: g") [] [] (None, 0) [odd_text; odd_text2] out (Raise e) /\
    skipn 788 out = concat (map (fun l => B l ++ CRLF)
      ["WARC/1.0"; "WARC-Record-ID: <urn:uuid:0>"; "WARC-Target-URI: dns:h.org"; "WARC-Warcinfo-ID: <urn:uuid:0>"; "WARC-Date: 2020-01-31T00:00:00Z";
       "WARC-Type: response"; "Content-Type: text/dns"; "Content-Length: 1"; ""; "!"; "";
       "WARC/1.0"; "WARC-Record-ID: <urn:uuid:0>"; "WARC-Target-URI: dns:h.org"; "WARC-Warcinfo-ID: <urn:uuid:0>"; "WARC-Date: 2020-01-02T03:04:05Z";
       "WARC-Type: response"; "Content-Type: text/dns"; "Content-Length: 9"; ""]%string) ++ B "the rest" ++ [LF] ++ CRLF ++ CRLF.
Proof.
  assert (Hf : Forall2 (file_holds (fun x => x)) odd_files [odd_text; odd_text2]).
  { assert (N : forall n t, endswith (B ".gz") n = false -> n <> t ++ B ".gz") by (intros n t E ->; assert (endswith (B ".gz") (t ++ B ".gz") = true) by (apply endswith_iff; eauto); congruence).
    unfold odd_files. constructor; [|constructor; [|constructor]]; (left; split; [intro t; apply N; reflexivity|split; [intros t E; discriminate|reflexivity]]). }
  split; [exact Hf|].
  destruct (arc2warc (fun x => x) no_gz ex_uuid ex_clock None false (B "f: g") [] [] odd_files) as [o out] eqn:E.
  assert (Eo : o = fst (arc2warc (fun x => x) no_gz ex_uuid ex_clock None false (B "f: g") [] [] odd_files)) by (rewrite E; reflexivity). vm_compute in Eo.
  assert (El : out = snd (arc2warc (fun x => x) no_gz ex_uuid ex_clock None false (B "f: g") [] [] odd_files)) by (rewrite E; reflexivity). 
  subst o. exists out. eexists. split; [apply (C79_any_files (fun x => x) no_gz ex_uuid ex_clock None false (B "f: g") [] [] odd_files [odd_text; odd_text2] _ _ Hf); exact E|].
  rewrite El. vm_compute. reflexivity.
Qed.
