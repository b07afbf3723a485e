(** C50 - C52: arc2warc. *)
From Verif Require Export Arc2Warc DateFacts PropsTools PropsArc.
From Coq Require Import String List Lia.
Open Scope list_scope.

(** ** Specification *)
(** the text of the WARC date for the date field of an ARC record: fourteen digits, eight
    digits, or nothing - then the current time [now] is used *)
Inductive dated (now : bytes) : bytes -> bytes -> Prop :=
| Dated14 Y M D h mi s : digits 4 Y -> digits 2 M -> digits 2 D -> digits 2 h -> digits 2 mi -> digits 2 s ->
    calendar (number Y) (number M) (number D) -> clock_time (number h) (number mi) (number s) ->
    dated now (Y ++ M ++ D ++ h ++ mi ++ s) (warc_date Y M D h mi s)
| Dated8 Y M D : digits 4 Y -> digits 2 M -> digits 2 D -> calendar (number Y) (number M) (number D) ->
    dated now (Y ++ M ++ D) (warc_date Y M D (B "00") (B "00") (B "00"))
| DatedNow : dated now [] now.
(** the record type and content type, from the URL, the content type and the content *)
Definition starts_with_one (ps : list uprefix) (url : bytes) : Prop := exists p t, In (PBytes p) ps /\ lower url = p ++ t.
Definition byte_prefixes (ps : list uprefix) : Prop := ~ In PText ps.
Inductive kind (http_gz : bytes -> outcome bytes) (resources responses : list uprefix) (url ct content : bytes)
  : bytes -> bytes -> Prop :=
| KResource : starts_with_one resources url -> kind http_gz resources responses url ct content (B "resource") ct
| KResponse : ~ starts_with_one resources url -> starts_with_one responses url ->
    kind http_gz resources responses url ct content (B "response") ct
| KHttp t : ~ starts_with_one resources url -> ~ starts_with_one responses url -> lower url = B "http" ++ t ->
    whole_response http_gz content ->
    kind http_gz resources responses url ct content (B "response") (B "application/http;msgtype=response")
| KNotHttp t : ~ starts_with_one resources url -> ~ starts_with_one responses url -> lower url = B "http" ++ t ->
    partial_response http_gz content ->
    kind http_gz resources responses url ct content (B "resource") ct
| KOther : ~ starts_with_one resources url -> ~ starts_with_one responses url -> (forall t, lower url <> B "http" ++ t) ->
    kind http_gz resources responses url ct content (B "response") ct.
Definition known_type (ct : bytes) : bytes := if forallb is_space ct then B "application/octet-stream" else ct.
Definition ip_header (hs : list header) : list header :=
  match first_header (B "IP-address") hs with
  | Some (c :: t) => if bytes_eqb (strip (c :: t)) (B "0.0.0.0") then [] else [(B "WARC-IP-Address", strip (c :: t))]
  | _ => []
  end.
(** the WARC record for an ARC record with fields [hs] *)
Inductive arc_becomes (uuid : bytes -> bytes) (http_gz : bytes -> outcome bytes) (resources responses : list uprefix)
    (info now : bytes) (hs : list header) (body : bytes) : wrec -> Prop :=
| ArcBecomes url date ct text type ct' :
    first_header (B "URL") hs = Some url -> first_header (B "Archive-date") hs = Some date ->
    first_header (B "Content-type") hs = Some ct -> dated now date text ->
    kind http_gz resources responses url (known_type ct) body type ct' ->
    arc_becomes uuid http_gz resources responses info now hs body
      (tuple_wrec (B "WARC/1.0")
        ([(B "WARC-Record-ID", uuid (url ++ date)); (B "WARC-Target-URI", url); (B "WARC-Warcinfo-ID", info)]
         ++ ip_header hs ++ [(B "WARC-Date", text); (B "WARC-Type", type)]) (Some ct') body).
(** the filedesc date: only its first fourteen (or eight) bytes count *)
Inductive desc_dated (now : bytes) : bytes -> bytes -> Prop :=
| Desc14 Y M D h mi s more : digits 4 Y -> digits 2 M -> digits 2 D -> digits 2 h -> digits 2 mi -> digits 2 s ->
    calendar (number Y) (number M) (number D) -> clock_time (number h) (number mi) (number s) ->
    desc_dated now (Y ++ M ++ D ++ h ++ mi ++ s ++ more) (warc_date Y M D h mi s)
| Desc8 Y M D more : digits 4 Y -> digits 2 M -> digits 2 D -> calendar (number Y) (number M) (number D) -> List.length more < 6 ->
    desc_dated now (Y ++ M ++ D ++ more) (warc_date Y M D (B "00") (B "00") (B "00"))
| DescNow : desc_dated now [] now.
Definition archive_name (url name : bytes) : Prop :=
  url = B "filedesc://" ++ name \/ ((forall t, url <> B "filedesc://" ++ t) /\ name = url).
(** the two WARC records for a filedesc record with fields [hs] and text [raw] *)
Inductive desc_becomes (uuid : bytes -> bytes) (fields now : bytes) (hs : list header) (raw : bytes)
  : bytes -> wrec -> wrec -> Prop :=
| DescBecomes url date text name :
    first_header (B "URL") hs = Some url -> first_header (B "Archive-date") hs = Some date ->
    desc_dated now date text -> archive_name url name ->
    let info := uuid (url ++ now) in
    desc_becomes uuid fields now hs raw info
      (tuple_wrec (B "WARC/1.0")
        [(B "WARC-Type", B "warcinfo"); (B "WARC-Record-ID", info); (B "WARC-Date", now)]
        (Some (B "application/warc-fields")) fields)
      (tuple_wrec (B "WARC/1.0")
        [(B "WARC-Type", B "metadata"); (B "WARC-Concurrent-To", info); (B "WARC-Record-ID", uuid (url ++ date ++ B "-meta"));
         (B "WARC-Target-URI", name); (B "WARC-Date", text); (B "WARC-Warcinfo-ID", info)]
        (Some (B "application/arc")) raw).
(** one record of the archive: [ask] is how often the clock has been asked *)
Definition asks (hs : list header) : nat :=
  match first_header (B "Archive-date") hs with Some [] => 1 | _ => 0 end.
Inductive becomes (uuid : bytes -> bytes) (clock : nat -> datetime) (http_gz : bytes -> outcome bytes)
    (fields : bytes) (resources responses : list uprefix) (names : list bytes)
  : unit_ -> option bytes * nat -> list wrec -> option bytes * nat -> Prop :=
| BWarc w s : becomes uuid clock http_gz fields resources responses names (UWarc w) s [w] s
| BDesc vs crlf vl nl body o n id w1 w2 :
    desc_becomes uuid fields (warc_datetime_str (clock n)) (combine (words nl) vs) (unit_text (UDesc vs crlf vl nl body)) id w1 w2 ->
    becomes uuid clock http_gz fields resources responses names (UDesc vs crlf vl nl body) (o, n) [w1; w2] (Some id, S n)
| BArc vs crlf body info n w :
    arc_becomes uuid http_gz resources responses info (warc_datetime_str (clock n)) (combine names vs) body w ->
    becomes uuid clock http_gz fields resources responses names (UArc vs crlf body) (Some info, n) [w]
      (Some info, asks (combine names vs) + n).
Inductive becomes_all (uuid : bytes -> bytes) (clock : nat -> datetime) (http_gz : bytes -> outcome bytes)
    (fields : bytes) (resources responses : list uprefix)
  : list bytes -> units -> option bytes * nat -> list wrec -> option bytes * nat -> Prop :=
| BAnil names s : becomes_all uuid clock http_gz fields resources responses names [] s [] s
| BAcons names u sep a s1 ws s2 ws' s3 :
    becomes uuid clock http_gz fields resources responses names u s1 ws s2 ->
    becomes_all uuid clock http_gz fields resources responses (names_after names u) a s2 ws' s3 ->
    becomes_all uuid clock http_gz fields resources responses names ((u, sep) :: a) s1 (ws ++ ws') s3.
(** several archives, one after the other *)
Inductive becomes_files (uuid : bytes -> bytes) (clock : nat -> datetime) (http_gz : bytes -> outcome bytes)
    (fields : bytes) (resources responses : list uprefix)
  : list units -> option bytes * nat -> list wrec -> option bytes * nat -> Prop :=
| BFnil s : becomes_files uuid clock http_gz fields resources responses [] s [] s
| BFcons a l s1 ws s2 ws' s3 :
    becomes_all uuid clock http_gz fields resources responses [] a s1 ws s2 ->
    becomes_files uuid clock http_gz fields resources responses l s2 ws' s3 ->
    becomes_files uuid clock http_gz fields resources responses (a :: l) s1 (ws ++ ws') s3.
Definition holds_units (gunzip : bytes -> bytes) (i : input) (a : units) : Prop :=
  units_ok [] a /\ Forall (fun x => not_warc_like (fst x)) a /\ file_holds gunzip i (units_text a).

(** ** Classification *)
Lemma any_prefix_iff ps url : byte_prefixes ps -> exists b, any_prefix ps (lower url) = Ret b /\ (b = true <-> starts_with_one ps url).
Proof.
  induction ps as [|[p|] ps IH]; intro H.
  - exists false. split; [reflexivity|]. split; [discriminate|]. intros (p & t & [] & _).
  - destruct IH as (b & E & Hb); [intro Hi; apply H; right; exact Hi|]. cbn [any_prefix].
    destruct (startswith p (lower url)) eqn:Es.
    + exists true. split; [reflexivity|]. split; [|reflexivity]. intros _. apply startswith_iff in Es as [t Et]. exists p, t. split; [left; reflexivity|exact Et].
    + exists b. split; [exact E|]. rewrite Hb. split.
      * intros (q & t & Hi & Et). exists q, t. split; [right; exact Hi|exact Et].
      * intros (q & t & [Hi|Hi] & Et); [|exists q, t; auto]. injection Hi as <-. assert (startswith p (lower url) = true) by (apply startswith_iff; eauto). congruence.
  - exfalso. apply H. left. reflexivity.
Qed.
Lemma is_http_true hg content : whole_response hg content -> is_http_response hg content = Ret true.
Proof. intros (m & E & Hc). unfold is_http_response. rewrite E. cbn [bind]. rewrite Hc. reflexivity. Qed.
Lemma is_http_false hg content : partial_response hg content -> is_http_response hg content = Ret false.
Proof. intros (m & more & E & Hc). unfold is_http_response. rewrite E. cbn [bind]. destruct Hc as [Hc|Hc]; [destruct more; [contradiction|]; rewrite andb_false_r; reflexivity|rewrite Hc; reflexivity]. Qed.
Lemma is_http_cases hg content b : is_http_response hg content = Ret b ->
  (b = true /\ whole_response hg content) \/ (b = false /\ partial_response hg content).
Proof.
  unfold is_http_response. destruct (Http.feed hg (Http.new_response [] []) content) as [[m more]|e|] eqn:E; try discriminate. cbn [bind].
  intro H. injection H as <-. destruct (Http.complete (Http.close m)) eqn:Ec; cbn [andb].
  - destruct more as [|c t]; [left; split; [reflexivity|exists m; auto]|right; split; [reflexivity|]]. exists m, (c :: t). split; [exact E|]. left. discriminate.
  - right. split; [reflexivity|]. exists m, more. auto.
Qed.
(** the rule decides whenever it applies *)
Lemma classify_iff hg t url ct content type ct' : byte_prefixes (tr_resources t) -> byte_prefixes (tr_responses t) ->
  (classify hg t url ct content = Ret (type, ct') <->
   kind hg (tr_resources t) (tr_responses t) url ct content type ct').
Proof.
  intros H1 H2. unfold classify. destruct (any_prefix_iff _ url H1) as (b1 & E1 & B1). destruct (any_prefix_iff _ url H2) as (b2 & E2 & B2).
  rewrite E1. cbn [bind]. destruct b1.
  { assert (S1 : starts_with_one (tr_resources t) url) by (apply B1; reflexivity).
    split; [intro H; injection H as <- <-; apply KResource; exact S1|]. intros [ | | | | ]; try contradiction. reflexivity. }
  assert (N1 : ~ starts_with_one (tr_resources t) url) by (intro H; apply B1 in H; discriminate).
  rewrite E2. cbn [bind]. destruct b2.
  { assert (S2 : starts_with_one (tr_responses t) url) by (apply B2; reflexivity).
    split; [intro H; injection H as <- <-; apply KResponse; assumption|]. intros [ | | | | ]; try contradiction. reflexivity. }
  assert (N2 : ~ starts_with_one (tr_responses t) url) by (intro H; apply B2 in H; discriminate).
  destruct (startswith (B "http") (lower url)) eqn:Eh.
  - apply startswith_iff in Eh as [x Ex]. split.
    + destruct (is_http_response hg content) as [b| |] eqn:Ei; try discriminate. cbn [bind]. intro H.
      destruct (is_http_cases _ _ _ Ei) as [[-> Hw]|[-> Hw]]; injection H as <- <-; [apply (KHttp _ _ _ _ _ _ x)|apply (KNotHttp _ _ _ _ _ _ x)]; assumption.
    + intros [ | |x' _ _ _ Hw|x' _ _ _ Hw|_ _ Hn]; try contradiction.
      * rewrite (is_http_true _ _ Hw). reflexivity.
      * rewrite (is_http_false _ _ Hw). reflexivity.
      * destruct (Hn x Ex).
  - assert (Hn : forall x, lower url <> B "http" ++ x).
    { intros x E. assert (startswith (B "http") (lower url) = true) by (apply startswith_iff; eauto). congruence. }
    split; [intro H; injection H as <- <-; apply KOther; assumption|]. intros [ | |x' _ _ Ex|x' _ _ Ex| ]; try contradiction; try (destruct (Hn x' Ex)). reflexivity.
Qed.

(** ** Dates *)
Lemma dated_means now date text : dated now date text -> date <> [] ->
  exists dt, arc_record_date date = Some dt /\ warc_datetime_str dt = text.
Proof.
  intros [Y M D h mi s HY HM HD Hh Hmi Hs Hc Ht|Y M D HY HM HD Hc|] Hn; [apply arc_date_14; assumption|apply arc_date_8; assumption|contradiction].
Qed.
Lemma desc_dated_means now date text : desc_dated now date text -> date <> [] ->
  exists dt, arc_filedesc_date date = Some dt /\ warc_datetime_str dt = text.
Proof.
  intros [Y M D h mi s more HY HM HD Hh Hmi Hs Hc Ht|Y M D more HY HM HD Hc Hm|] Hn; [| |contradiction]; unfold arc_filedesc_date.
  - pose proof HY as [L1 _]. pose proof HM as [L2 _]. pose proof HD as [L3 _]. pose proof Hh as [L4 _]. pose proof Hmi as [L5 _]. pose proof Hs as [L6 _].
    assert (E : Nat.leb 14 (List.length (Y ++ M ++ D ++ h ++ mi ++ s ++ more)) = true) by (apply Nat.leb_le; rewrite !app_length; lia). rewrite E.
    assert (F : firstn 14 (Y ++ M ++ D ++ h ++ mi ++ s ++ more) = Y ++ M ++ D ++ h ++ mi ++ s).
    { replace (Y ++ M ++ D ++ h ++ mi ++ s ++ more) with ((Y ++ M ++ D ++ h ++ mi ++ s) ++ more) by (rewrite <- !app_assoc; reflexivity).
      rewrite firstn_app. replace (14 - List.length (Y ++ M ++ D ++ h ++ mi ++ s)) with 0 by (rewrite !app_length; lia).
      rewrite firstn_all2 by (rewrite !app_length; lia). apply app_nil_r. }
    rewrite F, strptime14 by assumption. eexists. split; [reflexivity|].
    rewrite warc_datetime_str_eq. cbn [dt_year dt_month dt_day dt_hour dt_min dt_sec]. rewrite !pad2_number, pad4_number by assumption. reflexivity.
  - pose proof HY as [L1 _]. pose proof HM as [L2 _]. pose proof HD as [L3 _].
    assert (E : Nat.leb 14 (List.length (Y ++ M ++ D ++ more)) = false) by (apply Nat.leb_gt; rewrite !app_length; lia). rewrite E.
    assert (F : firstn 8 (Y ++ M ++ D ++ more) = Y ++ M ++ D).
    { replace (Y ++ M ++ D ++ more) with ((Y ++ M ++ D) ++ more) by (rewrite <- !app_assoc; reflexivity).
      rewrite firstn_app. replace (8 - List.length (Y ++ M ++ D)) with 0 by (rewrite !app_length; lia).
      rewrite firstn_all2 by (rewrite !app_length; lia). apply app_nil_r. }
    rewrite F, strptime8 by assumption. eexists. split; [reflexivity|].
    rewrite warc_datetime_str_eq. cbn [dt_year dt_month dt_day dt_hour dt_min dt_sec]. rewrite !pad2_number, pad4_number by assumption. reflexivity.
Qed.

(** ** One record *)
Lemma strip_blank s : strip s = [] <-> forallb is_space s = true.
Proof.
  split.
  - intro H. destruct (strip_split s) as (a & b & E & Ha & Hb). rewrite H in E. cbn [app] in E. rewrite E, forallb_app, Ha, Hb. reflexivity.
  - intro H. pose proof (strip_is_trimmed s) as [Ht _]. destruct (strip s) as [|c t] eqn:E; [reflexivity|]. exfalso.
    rewrite forallb_forall in H. assert (Hc : is_space c = true) by (apply H, In_strip; rewrite E; left; reflexivity).
    rewrite (Ht c t eq_refl) in Hc. discriminate.
Qed.
Lemma known_type_eq ct : match strip ct with [] => B "application/octet-stream" | _ => ct end = known_type ct.
Proof.
  unfold known_type. pose proof (strip_blank ct) as H. destruct (strip ct); destruct (forallb is_space ct); try reflexivity.
  - destruct H as [H _]. discriminate (H eq_refl).
  - destruct H as [_ H]. discriminate (H eq_refl).
Qed.
Lemma writable_all hs : writable (map (fun h : header => (fst h, Some (snd h))) hs) = (hs, true).
Proof. induction hs as [|[n v] hs IH]; [reflexivity|]. cbn [map writable fst snd]. rewrite IH. reflexivity. Qed.
Definition draft_of (hs : list header) (ct body : bytes) : draft := mkdraft (map (fun h : header => (fst h, Some (snd h))) hs) ct body.
Lemma write_draft_ok gz out st hs ct body :
  write_draft gz out st (draft_of hs ct body) =
  (Ret tt, out ++ in_output gz (canonical (tuple_wrec (B "WARC/1.0") hs (Some ct) body)), st).
Proof.
  unfold write_draft, draft_of. cbn [df_headers df_type df_body]. rewrite writable_all. apply emit_memory; reflexivity.
Qed.
Section Step.
  Variables (http_gz : bytes -> outcome bytes) (uuid : bytes -> bytes) (clock : nat -> datetime).
  Variable gz : option gzipper.
  Variables (fields : bytes) (resources responses : list uprefix).
  Hypothesis Hres : byte_prefixes resources.
  Hypothesis Hrsp : byte_prefixes responses.
  Definition tr (s : option bytes * nat) : transformer := mktr (fst s) None fields resources responses (snd s).
  Definition outs (ws : list wrec) : bytes := concat (map (fun w => in_output gz (canonical w)) ws).
  Lemma arc_record_step names vs crlf body info n w st after :
    arc_becomes uuid http_gz resources responses info (warc_datetime_str (clock n)) (combine names vs) body w ->
    in_payload st body after ->
    exists hs ct st', convert http_gz uuid clock (tr (Some info, n)) st (unit_rec names (UArc vs crlf body)) =
        (Ret [draft_of hs ct body], tr (Some info, asks (combine names vs) + n), st') /\
      w = tuple_wrec (B "WARC/1.0") hs (Some ct) body /\ st' = moved st (List.length body) 0.
  Proof.
    intros [url date ct text type ct' Hu Hd Hc Hdt Hk] Hi. set (hs := combine names vs) in *.
    set (r := unit_rec names (UArc vs crlf body)).
    assert (Eu : rec_url r = Some url) by (unfold rec_url, get_header; rewrite lookup_first; exact Hu).
    assert (Ed : rec_date r = Some date) by (unfold rec_date, get_header; rewrite lookup_first; exact Hd).
    assert (Et : get_header r (ct_name r) = Some ct) by (unfold get_header; rewrite lookup_first; exact Hc).
    unfold convert. change (is_some_eq (rec_type r) V_FILEDESC) with false. cbn iota. unfold convert_record. rewrite Eu, Ed.
    assert (Eip : match get_header r ARC_IP with
                  | Some ((_ :: _) as v) => if bytes_eqb (strip v) (B "0.0.0.0") then [] else [(WARC_IP, Some (strip v))]
                  | _ => [] end = map (fun h : header => (fst h, Some (snd h))) (ip_header hs)).
    { unfold ip_header, get_header. rewrite lookup_first. change ARC_IP with (B "IP-address"). change (r_headers r) with hs.
      destruct (first_header (B "IP-address") hs) as [[|c v]|]; try reflexivity. destruct (bytes_eqb (strip (c :: v)) (B "0.0.0.0")); reflexivity. }
    rewrite Eip. clear Eip. rewrite (rec_content_payload r st body after eq_refl eq_refl Hi), Et. rewrite known_type_eq.
    assert (Hcl : forall m, classify http_gz (tr (Some info, m)) url (known_type ct) body = Ret (type, ct')).
    { intro m. apply classify_iff; assumption. }
    assert (Ew : (match date with [] => (Some (clock (tr_asked (tr (Some info, n)))), tick (tr (Some info, n))) | _ => (arc_record_date date, tr (Some info, n)) end)
       = (match date with [] => Some (clock n) | _ => arc_record_date date end, tr (Some info, asks hs + n))).
    { unfold asks. rewrite Hd. destruct date; reflexivity. }
    rewrite Ew. clear Ew.
    assert (Edt : exists dt, match date with [] => Some (clock n) | _ => arc_record_date date end = Some dt /\ warc_datetime_str dt = text).
    { destruct date as [|c d]; [|apply (dated_means _ _ _ Hdt); discriminate].
      exists (clock n). split; [reflexivity|].
      inversion Hdt as [Y M D h mi s HY HM HD Hh Hmi Hs E1 E2 E0|Y M D HY HM HD E1 E0|]; subst; [exfalso|exfalso|reflexivity];
        destruct HY as [L _]; apply (f_equal (@List.length N)) in E0; rewrite !app_length, L in E0; discriminate. }
    destruct Edt as (dt & Edt & <-). rewrite Edt. rewrite Hcl.
    exists ([(B "WARC-Record-ID", uuid (url ++ date)); (B "WARC-Target-URI", url); (B "WARC-Warcinfo-ID", info)]
         ++ ip_header hs ++ [(B "WARC-Date", warc_datetime_str dt); (B "WARC-Type", type)]), ct', (moved st (List.length body) 0).
    split; [|split; reflexivity]. unfold draft_of. rewrite !map_app. reflexivity.
  Qed.
  Lemma desc_record_step names vs crlf vl nl body o n id w1 w2 st after :
    desc_becomes uuid fields (warc_datetime_str (clock n)) (combine (words nl) vs) (unit_text (UDesc vs crlf vl nl body)) id w1 w2 ->
    in_payload st body after ->
    exists h1 c1 b1 h2 c2 b2 st', convert http_gz uuid clock (tr (o, n)) st (unit_rec names (UDesc vs crlf vl nl body)) =
        (Ret [draft_of h1 c1 b1; draft_of h2 c2 b2], tr (Some id, S n), st') /\
      w1 = tuple_wrec (B "WARC/1.0") h1 (Some c1) b1 /\ w2 = tuple_wrec (B "WARC/1.0") h2 (Some c2) b2 /\
      st' = moved st (List.length body) 0.
  Proof.
    intros [url date text name Hu Hd Hdt Hn info] Hi.
    set (u := UDesc vs crlf vl nl body) in *. set (r := unit_rec names u).
    assert (Eu : rec_url r = Some url) by (unfold rec_url, get_header; rewrite lookup_first; exact Hu).
    assert (Ed : rec_date r = Some date) by (unfold rec_date, get_header; rewrite lookup_first; exact Hd).
    unfold convert. change (is_some_eq (rec_type r) V_FILEDESC) with true. cbn iota. unfold convert_filedesc. rewrite Eu, Ed.
    change (tr_asked (tr (o, n))) with n. change (tr_output (tr (o, n))) with (@None (option bytes)). cbn iota. change (tr_fields (tr (o, n))) with fields.
    assert (Edt : match date with
                  | (_ :: _) as d => match arc_filedesc_date d with Some dt => Ret (warc_datetime_str dt) | None => Raise EValueError end
                  | [] => Ret (warc_datetime_str (clock n))
                  end = Ret text).
    { destruct date as [|c d].
      - inversion Hdt as [Y M D h mi s more HY HM HD Hh Hmi Hs E1 E2 E0|Y M D more HY HM HD E1 E2 E0|]; subst; [exfalso|exfalso|reflexivity];
        destruct HY as [L _]; apply (f_equal (@List.length N)) in E0; rewrite !app_length, L in E0; discriminate.
      - destruct (desc_dated_means _ _ _ Hdt) as (dt & E & <-); [discriminate|]. rewrite E. reflexivity. }
    rewrite Edt.
    assert (Er : arc_raw r st = (Ret (unit_text u), with_cf (with_content r (get_header r (ct_name r), Some body)) CF_none, moved st (List.length body) 0)).
    { unfold arc_raw. change (r_class r) with (RArcHeader (strip vl) [fields_text vs ++ eol crlf; vl ++ eol crlf; nl ++ eol crlf]). cbn iota.
      rewrite (rec_content_payload r st body after eq_refl eq_refl Hi). f_equal. f_equal. f_equal. cbn [concat unit_text u].
      rewrite app_nil_r, <- !app_assoc. reflexivity. }
    rewrite Er.
    assert (En : (if startswith FILEDESC_URL url then skipn 11 url else url) = name).
    { change FILEDESC_URL with (B "filedesc://"). destruct Hn as [ -> |[Hn -> ]].
      - assert (E : startswith (B "filedesc://") (B "filedesc://" ++ name) = true) by (apply startswith_iff; eauto). rewrite E. reflexivity.
      - destruct (startswith (B "filedesc://") url) eqn:E; [|reflexivity]. apply startswith_iff in E as [t E]. destruct (Hn t E). }
    rewrite En.
    exists [(B "WARC-Type", B "warcinfo"); (B "WARC-Record-ID", info); (B "WARC-Date", warc_datetime_str (clock n))], (B "application/warc-fields"), fields,
      [(B "WARC-Type", B "metadata"); (B "WARC-Concurrent-To", info); (B "WARC-Record-ID", uuid (url ++ date ++ B "-meta"));
         (B "WARC-Target-URI", name); (B "WARC-Date", text); (B "WARC-Warcinfo-ID", info)], (B "application/arc"), (unit_text u), (moved st (List.length body) 0).
    split; [reflexivity|]. repeat split; reflexivity.
  Qed.
  Lemma body_step names u s1 ws s2 out st after :
    becomes uuid clock http_gz fields resources responses names u s1 ws s2 -> in_payload st (unit_body u) after ->
    exists st', a2w_body http_gz uuid clock gz (tr s1, out) st (unit_rec names u) = (Ret tt, (tr s2, out ++ outs ws), st') /\
      used st (List.length (unit_body u)) st'.
  Proof.
    intros Hb Hi. exists (moved st (List.length (unit_body u)) 0). split; [|apply used_all].
    destruct Hb as [w s|vs crlf vl nl body o n id w1 w2 Hb|vs crlf body info n w Hb]; unfold outs; cbn [map concat unit_body] in *.
    - unfold a2w_body. cbn [unit_rec]. change (is_warc (handed w)) with true. cbn iota.
      rewrite (emit_handed gz out st (handed w) (w_version w) (w_headers w) (w_body w) after eq_refl eq_refl eq_refl eq_refl Hi).
      rewrite app_nil_r. destruct w; reflexivity.
    - destruct (desc_record_step names vs crlf vl nl body o n id w1 w2 st after Hb Hi) as (h1 & c1 & b1 & h2 & c2 & b2 & st' & E & -> & -> & ->).
      unfold a2w_body. change (is_warc (unit_rec names (UDesc vs crlf vl nl body))) with false. cbn iota. rewrite E. cbn [write_drafts].
      rewrite !write_draft_ok. rewrite <- !app_assoc, app_nil_r. reflexivity.
    - destruct (arc_record_step names vs crlf body info n w st after Hb Hi) as (h1 & c1 & st' & E & -> & ->).
      unfold a2w_body. change (is_warc (unit_rec names (UArc vs crlf body))) with false. cbn iota. rewrite E. cbn [write_drafts].
      rewrite write_draft_ok. rewrite app_nil_r. reflexivity.
  Qed.
  Lemma outs_app a b : outs (a ++ b) = outs a ++ outs b.
  Proof. unfold outs. rewrite map_app, concat_app. reflexivity. Qed.
  Lemma iter_becomes names a s1 ws s2 : becomes_all uuid clock http_gz fields resources responses names a s1 ws s2 ->
    forall fuel out st start, units_ok names a -> Forall plain_value names -> List.length a < fuel ->
    at_text st start (units_text a) -> in_force (s_parser st) names -> Forall (fun x => reads (s_parser st) (fst x)) a -> s_kind st <> SGzipFile ->
    exists st', iter_loop fuel (a2w_body http_gz uuid clock gz) (tr s1, out) st = (Ret tt, (tr s2, out ++ outs ws), st').
  Proof.
    induction 1 as [names s|names u sep a s1 ws s2 ws' s3 Hb Hr IH]; intros fuel out st start Hok Hpn Hfu Hat Hf Hrd Hk.
    - destruct fuel as [|fuel]; [cbn in Hfu; lia|]. cbn [iter_loop].
      destruct (read_units_end st start false Hat Hk) as (st1 & E). rewrite E. unfold outs. cbn [map concat]. rewrite app_nil_r. eauto.
    - destruct fuel as [|fuel]; [cbn in Hfu; lia|]. cbn [iter_loop].
      destruct Hok as (Hu & Hsep & Hok'). inversion Hrd as [|? ? Hru Hrd']; subst. cbn [fst] in Hru.
      rewrite units_text_cons in Hat.
      destruct (read_unit st start names u _ false Hat Hf Hk Hru Hu Hpn) as (st1 & E & Hi & Hk1 & Hp1 & Hf1 & Hfu1 & Hpos1).
      rewrite E. destruct (body_step names u s1 ws s2 out st1 _ Hb Hi) as (st2 & E2 & Hus).
      rewrite E2. destruct (used_payload _ _ _ _ Hi Hus) as (l & _ & Hp2 & Hk2 & _).
      rewrite outs_app, app_assoc.
      apply (IH fuel _ st2 (start + List.length (unit_text u) + List.length sep)); try assumption.
      + apply names_after_plain. exact Hpn.
      + cbn in Hfu; lia.
      + apply (at_text_next st1 (unit_body u) st2 sep); try assumption. lia.
      + rewrite Hp2. exact Hf1.
      + rewrite Forall_forall in *. intros y Hy. apply (reads_pkind (s_parser st)); [congruence|]. apply Hrd'. exact Hy.
      + congruence.
  Qed.
End Step.
(** opening with the mixed reader *)
Lemma open_mixed_holds gunzip i text : file_holds gunzip i text ->
  exists st, open_mixed gunzip i = Ret st /\ at_text st 0 text /\ s_parser st = PMixed arc_init /\ s_kind st <> SGzipFile.
Proof.
  intro H.
  assert (E : exists k, open_mixed gunzip i = Ret (new_stream k (mkfile text 0 true) (PMixed arc_init)) /\ k <> SGzipFile).
  { destruct H as [(Hn & Hd & <-)|(H & <-)]; unfold open_mixed, open_stream.
    - exists SPlain. split; [|discriminate]. assert (E : endswith (B ".gz") (in_name i) = false).
      { destruct (endswith (B ".gz") (in_name i)) eqn:E; [|reflexivity]. apply endswith_iff in E as [t E]. destruct (Hn t E). }
      rewrite E. destruct (C25_gzip_detection (mkfile (in_data i) 0 true)) as [Hs Hg].
      destruct (is_gzip_file (mkfile (in_data i) 0 true)) as [b f'] eqn:Ei. cbn [fst snd] in *. subst f'.
      destruct b; [|reflexivity]. destruct Hg as [Hg _]. destruct (Hg eq_refl) as [t Ht]. destruct (Hd t Ht).
    - exists SGzipRecord. split; [|discriminate]. destruct (endswith (B ".gz") (in_name i)) eqn:E; [reflexivity|].
      assert (Hd : exists t, in_data i = [31; 139]%N ++ t).
      { destruct H as [[t H]|H]; [|exact H]. rewrite H in E. assert (endswith (B ".gz") (t ++ B ".gz") = true) by (apply endswith_iff; eauto). congruence. }
      destruct (C25_gzip_detection (mkfile (in_data i) 0 true)) as [Hs Hg].
      destruct (is_gzip_file (mkfile (in_data i) 0 true)) as [b f'] eqn:Ei. cbn [fst snd] in *. subst f'.
      destruct Hg as [_ Hg]. rewrite (Hg Hd). reflexivity. }
  destruct E as (k & E & Hk). eexists. split; [exact E|]. split; [|split; [reflexivity|exact Hk]].
  apply (new_at k (mkfile text 0 true)). reflexivity.
Qed.
Lemma files_step gunzip hg uuid clock gz fields res rsp l s1 ws s2 :
  byte_prefixes res -> byte_prefixes rsp ->
  becomes_files uuid clock hg fields res rsp l s1 ws s2 -> forall files out, Forall2 (holds_units gunzip) files l ->
  a2w_files gunzip hg uuid clock gz files (tr fields res rsp s1, out) = (Ret tt, (tr fields res rsp s2, out ++ outs gz ws)).
Proof.
  intros H1 H2 H. induction H as [s|a l s1 ws s2 ws' s3 Ha _ IH]; intros files out Hf; inversion Hf as [|i a' files' l' (Hok & Hw & Hh) Hf']; subst.
  - unfold outs. cbn [map concat a2w_files]. rewrite app_nil_r. reflexivity.
  - cbn [a2w_files]. destruct (open_mixed_holds gunzip i _ Hh) as (st & Eo & Hat & Hp & Hk). rewrite Eo. unfold for_records.
    destruct (iter_becomes hg uuid clock gz fields res rsp H1 H2 [] a s1 ws s2 Ha (file_fuel (s_fh st)) out st 0) as [st' E]; try assumption.
    + constructor.
    + destruct (at_text_fresh _ _ _ Hat) as (st0 & _ & _ & Hr & _ & _ & _ & Hf0).
      rewrite <- Hf0. pose proof (rest_fuel st0) as Hl. rewrite Hr in Hl. pose proof (units_text_records _ _ Hok). lia.
    + rewrite Hp. reflexivity.
    + rewrite Hp. exact Hw.
    + rewrite E. cbn iota beta. eapply eq_trans; [exact (IH files' (out ++ outs gz ws) Hf')|]. rewrite outs_app, <- app_assoc. reflexivity.
Qed.

(** ** C50 *)
(** the whole output: two records for every filedesc, one for every other record, in order *)
Theorem C50_converts_every_record : forall gunzip http_gz uuid clock (gz : option gzipper) fields resources responses
    (files : list input) (l : list units) (ws : list wrec) final,
  byte_prefixes resources -> byte_prefixes responses -> Forall2 (holds_units gunzip) files l ->
  becomes_files uuid clock http_gz fields resources responses l (None, 0) ws final ->
  arc2warc gunzip http_gz uuid clock gz false fields resources responses files =
  (Ret tt, concat (map (fun w => in_output gz (canonical w)) ws)).
Proof.
  intros gunzip hg uuid clock gz fields res rsp files l ws final H1 H2 Hf Hb. unfold arc2warc.
  pose proof (files_step gunzip hg uuid clock gz fields res rsp l (None, 0) ws final H1 H2 Hb files [] Hf) as E.
  change (new_transformer (text_name false) fields res rsp) with (tr fields res rsp (None, 0)).
  match goal with |- (match ?x with _ => _ end) = _ => replace x with (@Ret unit tt, (tr fields res rsp final, [] ++ outs gz ws)) by (symmetry; exact E) end. reflexivity.
Qed.

(** the output can be read back: every record is well formed *)
Definition tidy_unit (names : list bytes) (u : unit_) : Prop :=
  match u with
  | UWarc _ => True
  | UArc vs _ _ => Forall tidy vs
  | UDesc vs _ _ nl _ => Forall tidy vs /\ (forall t, first_header (B "URL") (combine (words nl) vs) = Some (B "filedesc://" ++ t) -> tidy t)
  end.
Fixpoint all_tidy (names : list bytes) (a : units) : Prop :=
  match a with [] => True | (u, _) :: t => tidy_unit names u /\ all_tidy (names_after names u) t end.
Lemma first_header_in name hs v : first_header name hs = Some v -> exists n, In (n, v) hs.
Proof.
  induction hs as [|[n x] hs IH]; [discriminate|]. cbn [first_header]. destruct (same_nameb n name).
  - intro H. injection H as ->. exists n. left. reflexivity.
  - intro H. destruct (IH H) as [m Hm]. exists m. right. exact Hm.
Qed.
Lemma in_fields v vs c : In v vs -> In c v -> In c (fields_text vs).
Proof.
  intros Hv Hc. unfold fields_text. induction vs as [|x vs IH]; [destruct Hv|]. destruct vs as [|y vs].
  - destruct Hv as [ -> |[]]. exact Hc.
  - cbn [join]. destruct Hv as [ -> |Hv]; apply in_or_app; [left; exact Hc|right; right; apply IH; exact Hv].
Qed.
Lemma field_value_ok names nm vs v : fields_ok names vs -> Forall tidy vs -> first_header nm (combine names vs) = Some v -> value_ok v.
Proof.
  intros (_ & _ & _ & _ & Hlf & _) Ht H. apply first_header_in in H as [n Hn]. apply in_combine_r in Hn. split.
  - intro Hc. apply Hlf. exact (in_fields v vs LF Hn Hc).
  - rewrite Forall_forall in Ht. apply Ht. exact Hn.
Qed.
Lemma date_text_ok Y M D h mi s : digits 4 Y -> digits 2 M -> digits 2 D -> digits 2 h -> digits 2 mi -> digits 2 s -> value_ok (warc_date Y M D h mi s).
Proof.
  intros HY HM HD Hh Hmi Hs.
  destruct (digits4 Y HY) as (a & b & c & d & -> & Ha & Hb & Hc & Hd). two HM e f He Hf. two HD g i Hg Hi. two Hh j k Hj Hk. two Hmi l m Hl Hm. two Hs n o Hn Ho.
  split.
  - intro H. unfold warc_date in H. cbn in H. unfold LF in H. repeat (destruct H as [H|H]; [lia|]). destruct H.
  - apply strip_trimmed. unfold warc_date. split.
    + intros x t E. cbn in E. injection E as <- _. unfold is_space. apply orb_false_iff. split; [apply N.eqb_neq; lia|].
      apply andb_false_iff. right. apply N.leb_gt. lia.
    + intros t x E. rewrite !app_assoc in E. change (B "Z") with [90%N] in E. apply app_inj_tail in E as [_ <-]. reflexivity.
Qed.
Lemma digits2_pad n : digits 2 (pad2 n).
Proof. split; [reflexivity|]. intros c H. apply (pad_digits _ _ H). Qed.
Lemma digits4_pad n : digits 4 (pad4 n).
Proof. split; [reflexivity|]. intros c H. apply in_app_or in H as [H|H]; apply (pad_digits _ _ H). Qed.
Lemma now_ok d : value_ok (warc_datetime_str d).
Proof. rewrite warc_datetime_str_eq. apply date_text_ok; try apply digits2_pad. apply digits4_pad. Qed.
Lemma zero_digits : digits 2 (B "00").
Proof. split; [reflexivity|]. intros c H. change (B "00") with [48; 48]%N in H. destruct H as [<-|[<-|[]]]; lia. Qed.
Lemma dated_ok now date text : value_ok now -> dated now date text -> value_ok text.
Proof. intros Hn [ | | ]; [apply date_text_ok; assumption|apply date_text_ok; try assumption; apply zero_digits|exact Hn]. Qed.
Lemma desc_dated_ok now date text : value_ok now -> desc_dated now date text -> value_ok text.
Proof. intros Hn [ | | ]; [apply date_text_ok; assumption|apply date_text_ok; try assumption; apply zero_digits|exact Hn]. Qed.
Definition name_clean (n : bytes) : Prop := name_ok n /\ ~ same_name n (B "Content-Type") /\ ~ same_name n (B "Content-Length").
Lemma tuple_ok_from hs ct body : Forall (fun h : header => name_clean (fst h) /\ value_ok (snd h)) hs -> value_ok ct ->
  wrec_ok (tuple_wrec (B "WARC/1.0") hs (Some ct) body).
Proof.
  intros H Hc. apply tuple_wrec_ok.
  - left. reflexivity.
  - eapply Forall_impl; [|exact H]. intros h [[H1 _] H2]. split; assumption.
  - eapply Forall_impl; [|exact H]. intros h [(_ & H1 & H2) _] _. split; intro; contradiction.
  - exact Hc.
Qed.
Ltac literal_name := split; [apply literal_name_ok; reflexivity|split; discriminate].
Lemma tidy_value s : (forall c, In c s -> N.eqb c 10 = false) -> strip s = s -> value_ok s.
Proof. intros H Ht. split; [|exact Ht]. intro Hi. apply H in Hi. discriminate. Qed.
Ltac literal_value := apply tidy_value; [let c := fresh in let H := fresh in intros c H; cbn in H; repeat (destruct H as [<-|H]; [reflexivity|]); destruct H|reflexivity].
Lemma arc_becomes_ok uuid hg res rsp info now names vs body w : (forall x, value_ok (uuid x)) -> value_ok info -> value_ok now ->
  fields_ok names vs -> Forall tidy vs -> arc_becomes uuid hg res rsp info now (combine names vs) body w -> wrec_ok w.
Proof.
  intros Hu Hi Hn Hf Ht [url date ct text type ct' Eu Ed Ec Hd Hk].
  pose proof (field_value_ok _ _ _ _ Hf Ht Eu) as Vu. pose proof (field_value_ok _ _ _ _ Hf Ht Ec) as Vc.
  pose proof (dated_ok _ _ _ Hn Hd) as Vd.
  assert (Vk : value_ok (known_type ct)) by (unfold known_type; destruct (forallb is_space ct); [literal_value|exact Vc]).
  apply tuple_ok_from.
  - cbn [app]. constructor; [split; [literal_name|apply Hu]|]. constructor; [split; [literal_name|exact Vu]|]. constructor; [split; [literal_name|exact Hi]|].
    apply Forall_app. split.
    + unfold ip_header. destruct (first_header (B "IP-address") (combine names vs)) as [[|c v]|] eqn:Ei; try constructor.
      destruct (bytes_eqb (strip (c :: v)) (B "0.0.0.0")); constructor; [|constructor]. split; [literal_name|]. cbn [snd].
      pose proof (field_value_ok _ _ _ _ Hf Ht Ei) as [V1 V2]. rewrite V2. split; assumption.
    + constructor; [split; [literal_name|exact Vd]|]. constructor; [|constructor]. split; [literal_name|]. cbn [snd]. destruct Hk; literal_value.
  - destruct Hk; try exact Vk. literal_value.
Qed.
Lemma desc_becomes_ok uuid fields now names vs raw id w1 w2 : (forall x, value_ok (uuid x)) -> value_ok now ->
  fields_ok names vs -> Forall tidy vs -> (forall t, first_header (B "URL") (combine names vs) = Some (B "filedesc://" ++ t) -> tidy t) ->
  desc_becomes uuid fields now (combine names vs) raw id w1 w2 -> wrec_ok w1 /\ wrec_ok w2 /\ value_ok id.
Proof.
  intros Hu Hn Hf Ht Hname [url date text name Eu Ed Hd Ha info].
  pose proof (field_value_ok _ _ _ _ Hf Ht Eu) as Vu. pose proof (desc_dated_ok _ _ _ Hn Hd) as Vd. pose proof (Hu (url ++ now)) as Vi. fold info in Vi.
  assert (Vn : value_ok name).
  { destruct Ha as [E|[_ -> ]]; [|exact Vu]. subst url. split; [|apply Hname; exact Eu]. intro H. apply (proj1 Vu). apply in_or_app. right. exact H. }
  split; [|split; [|exact Vi]]; apply tuple_ok_from; try literal_value.
  - repeat (constructor; [split; [literal_name|]|]); cbn [snd]; try assumption; try literal_value; constructor.
  - repeat (constructor; [split; [literal_name|]|]); cbn [snd]; try assumption; try apply Hu; try literal_value; constructor.
Qed.
Lemma becomes_all_ok uuid clock hg fields res rsp : (forall x, value_ok (uuid x)) -> forall names a s1 ws s2,
  becomes_all uuid clock hg fields res rsp names a s1 ws s2 -> units_ok names a -> all_tidy names a ->
  (forall i, fst s1 = Some i -> value_ok i) -> Forall wrec_ok ws /\ (forall i, fst s2 = Some i -> value_ok i).
Proof.
  intros Hu names a s1 ws s2 H. induction H as [names s|names u sep a s1 ws s2 ws' s3 Hb _ IH]; intros Hok Ht Hs; [split; [constructor|exact Hs]|].
  destruct Hok as (Huo & _ & Hok). destruct Ht as [Htu Ht].
  assert (G : Forall wrec_ok ws /\ (forall i, fst s2 = Some i -> value_ok i)).
  { destruct Hb as [w s|vs crlf vl nl body o n id w1 w2 Hb|vs crlf body info n w Hb].
    - split; [constructor; [exact Huo|constructor]|exact Hs].
    - destruct Huo as (Hf & _). destruct Htu as [T1 T2]. destruct (desc_becomes_ok _ _ _ _ _ _ _ _ _ Hu (now_ok _) Hf T1 T2 Hb) as (W1 & W2 & Vi).
      split; [constructor; [exact W1|constructor; [exact W2|constructor]]|]. cbn [fst]. intros i E. injection E as <-. exact Vi.
    - destruct Huo as (Hf & _). split; [|exact Hs]. constructor; [|constructor].
      apply (arc_becomes_ok _ _ _ _ _ _ _ _ _ _ Hu (Hs info eq_refl) (now_ok _) Hf Htu Hb). }
  destruct G as [G1 G2]. destruct (IH Hok Ht G2) as [I1 I2]. split; [apply Forall_app; split; assumption|exact I2].
Qed.
Lemma becomes_files_ok uuid clock hg fields res rsp : (forall x, value_ok (uuid x)) -> forall l s1 ws s2,
  becomes_files uuid clock hg fields res rsp l s1 ws s2 -> Forall (fun a => units_ok [] a /\ all_tidy [] a) l ->
  (forall i, fst s1 = Some i -> value_ok i) -> Forall wrec_ok ws.
Proof.
  intros Hu l s1 ws s2 H. induction H as [s|a l s1 ws s2 ws' s3 Ha _ IH]; intros Hl Hs; [constructor|]. inversion Hl as [|? ? [H1 H2] Hl']; subst.
  destruct (becomes_all_ok _ _ _ _ _ _ Hu _ _ _ _ _ Ha H1 H2 Hs) as [G1 G2]. apply Forall_app. split; [exact G1|]. apply IH; assumption.
Qed.
Theorem C50_output_reads_back : forall gunzip http_gz uuid clock fields resources responses
    (files : list input) (l : list units) (ws : list wrec) final,
  byte_prefixes resources -> byte_prefixes responses -> Forall2 (holds_units gunzip) files l ->
  Forall (all_tidy []) l -> (forall x, value_ok (uuid x)) ->
  becomes_files uuid clock http_gz fields resources responses l (None, 0) ws final ->
  exists text, arc2warc gunzip http_gz uuid clock None false fields resources responses files = (Ret tt, text) /\
  forall st, opened_on text st -> exists st',
    for_read_records None true look [] st = (Ret tt, seen_archive Some 0 (map (fun w => (w, terminator)) ws), st').
Proof.
  intros gunzip hg uuid clock fields res rsp files l ws final H1 H2 Hf Ht Hu Hb. eexists.
  split; [apply (C50_converts_every_record gunzip hg uuid clock None fields res rsp files l ws final H1 H2 Hf Hb)|].
  cbn [in_output]. rewrite canonical_archive. intros st Ho.
  assert (Hw : Forall wrec_ok ws).
  { apply (becomes_files_ok uuid clock hg fields res rsp Hu l (None, 0) ws final Hb); [|discriminate].
    clear - Hf Ht. induction Hf as [|i a files l (Hok & _) _ IH]; [constructor|]. inversion Ht; subst. constructor; auto. }
  assert (Ha : archive_ok (map (fun w => (w, terminator)) ws)).
  { apply Forall_forall. intros [w s] Hin. apply in_map_iff in Hin as (w0 & E & Hin). injection E as <- <-.
    split; [|apply terminator_ok]. rewrite Forall_forall in Hw. auto. }
  destruct (read_archive_plain _ st Ha Ho) as (R & _). exact R.
Qed.
(** what the records carry: URL, date, address, warcinfo id and content of the ARC record *)
Theorem C50_record_carries : forall uuid http_gz resources responses info now hs body w,
  arc_becomes uuid http_gz resources responses info now hs body w ->
  w_body w = body /\
  first_header (B "WARC-Target-URI") (w_headers w) = first_header (B "URL") hs /\
  first_header (B "WARC-Warcinfo-ID") (w_headers w) = Some info /\
  first_header (B "WARC-IP-Address") (w_headers w) =
    (match first_header (B "IP-address") hs with
     | Some (c :: t) => if bytes_eqb (strip (c :: t)) (B "0.0.0.0") then None else Some (strip (c :: t))
     | _ => None
     end) /\
  (exists date text, first_header (B "Archive-date") hs = Some date /\ dated now date text /\
     first_header (B "WARC-Date") (w_headers w) = Some text) /\
  declared_length (w_headers w) 0 = Z.of_nat (List.length body).
Proof.
  intros uuid hg res rsp info now hs body w [url date ct text type ct' Eu Ed Ec Hd Hk]. unfold tuple_wrec, tuple_headers. cbn [w_body w_headers].
  rewrite Eu. unfold ip_header.
  assert (D : forall x, declared_length [(B "Content-Length", dec_nat (List.length body))] x = Z.of_nat (List.length body)).
  { intro x. cbn [declared_length]. change (same_nameb (B "Content-Length") (B "Content-Length")) with true. cbn iota. rewrite py_int_dec_nat. reflexivity. }
  destruct (first_header (B "IP-address") hs) as [[|c v]|] eqn:Ei; [| destruct (bytes_eqb (strip (c :: v)) (B "0.0.0.0")) eqn:E0 |];
  (split; [reflexivity|]; split; [reflexivity|]; split; [reflexivity|]; split; [destruct ct'; reflexivity|]; split; [exists date, text; repeat split; assumption|]);
  rewrite app_assoc, declared_length_app; apply D.
Qed.
