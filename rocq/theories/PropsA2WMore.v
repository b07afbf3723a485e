(** C50 - C52, continued: record types, dates and failures of arc2warc, over any ARC
    record (not only those read from a well-formed archive). *)
From Verif Require Export PropsA2W.
From Coq Require Import String List Lia.
Open Scope list_scope.

(** ** Specification *)
(** an ARC record as the converter sees it: its URL and date, and its content *)
Definition arc_record_at (st : stream) (r : record) (url date : bytes) (ct content : bytes) : Prop :=
  rec_url r = Some url /\ rec_date r = Some date /\ rec_type r <> Some (B "filedesc") /\
  exists r' st', rec_content r st = (Ret (Some ct, Some content), r', st').
(** the value of a header of the new record; none or several do not count *)
Definition header_is (name : string) (d : draft) (v : bytes) : Prop :=
  filter (fun h => bytes_eqb (fst h) (B name)) (df_headers d) = [(B name, Some v)].
(** the URL is tested against the --resource prefixes, then --response, then http *)
Definition parses (http_gz : bytes -> outcome bytes) (content : bytes) : Prop :=
  whole_response http_gz content \/ partial_response http_gz content.

Section More.
Variables (http_gz : bytes -> outcome bytes) (uuid : bytes -> bytes) (clock : nat -> datetime).

Lemma not_filedesc r : rec_type r <> Some (B "filedesc") -> is_some_eq (rec_type r) V_FILEDESC = false.
Proof.
  intro H. destruct (is_some_eq (rec_type r) V_FILEDESC) eqn:E; [|reflexivity]. exfalso. apply H. unfold is_some_eq in E. destruct (rec_type r) as [x|]; [|discriminate].
  apply bytes_eqb_eq in E. subst x. reflexivity.
Qed.
Lemma convert_cases t st r url date ct content ds t' st'' : arc_record_at st r url date ct content ->
  convert http_gz uuid clock t st r = (Ret ds, t', st'') ->
  exists dt ip type ct',
    (date = [] -> dt = clock (tr_asked t)) /\ (date <> [] -> arc_record_date date = Some dt) /\
    (ip = [] \/ exists v, ip = [(WARC_IP, Some v)]) /\
    classify http_gz t url (known_type ct) content = Ret (type, ct') /\
    ds = [mkdraft ([(WARC_ID, Some (uuid (url ++ date))); (WARC_URL, Some url); (WARC_WARCINFO_ID, tr_id t)]
                   ++ ip ++ [(WARC_DATE, Some (warc_datetime_str dt)); (WARC_TYPE, Some type)]) ct' content].
Proof.
  intros (Eu & Ed & Et & r' & st' & Ec). unfold convert. rewrite (not_filedesc _ Et). unfold convert_record. rewrite Eu, Ed, Ec.
  set (ip := match get_header r ARC_IP with Some ((_ :: _) as v) => if bytes_eqb (strip v) (B "0.0.0.0") then [] else [(WARC_IP, Some (strip v))] | _ => [] end).
  assert (Hip : ip = [] \/ exists v, ip = [(WARC_IP, Some v)]).
  { unfold ip. destruct (get_header r ARC_IP) as [[|c v]|]; auto. destruct (bytes_eqb (strip (c :: v)) (B "0.0.0.0")); eauto. }
  clearbody ip. rewrite known_type_eq.
  assert (Hcl : classify http_gz (tick t) url (known_type ct) content = classify http_gz t url (known_type ct) content) by reflexivity.
  destruct date as [|c date].
  - rewrite Hcl. destruct (classify http_gz t url (known_type ct) content) as [[type ct']|e|] eqn:Ek; try discriminate.
    intro H. injection H as <- <- <-. exists (clock (tr_asked t)), ip, type, ct'. repeat split; try assumption; congruence.
  - destruct (arc_record_date (c :: date)) as [dt|] eqn:Edt; [|discriminate].
    destruct (classify http_gz t url (known_type ct) content) as [[type ct']|e|] eqn:Ek; try discriminate.
    intro H. injection H as <- <- <-. exists dt, ip, type, ct'. repeat split; try assumption; congruence.
Qed.
Lemma ip_names (ip : list (bytes * option bytes)) : ip = [] \/ (exists v, ip = [(WARC_IP, Some v)]) -> exists v, ip = match v with None => [] | Some x => [(WARC_IP, Some x)] end.
Proof. intros [ -> |[v -> ]]; [exists None|exists (Some v)]; reflexivity. Qed.

(** ** C51 *)
(** a record converted has the type and content type the rule gives *)
Theorem C51_type_by_rule : forall t st r url date ct content ds t' st',
  byte_prefixes (tr_resources t) -> byte_prefixes (tr_responses t) ->
  arc_record_at st r url date ct content ->
  convert http_gz uuid clock t st r = (Ret ds, t', st') ->
  exists d, ds = [d] /\ df_body d = content /\ exists type,
    header_is "WARC-Type" d type /\
    kind http_gz (tr_resources t) (tr_responses t) url (known_type ct) content type (df_type d).
Proof.
  intros t st r url date ct content ds t' st' H1 H2 Ha H.
  destruct (convert_cases _ _ _ _ _ _ _ _ _ _ Ha H) as (dt & ip & type & ct' & _ & _ & Hip & Hk & ->).
  eexists. split; [reflexivity|]. split; [reflexivity|]. exists type. split.
  - destruct (ip_names _ Hip) as [[v|] -> ]; reflexivity.
  - cbn [df_type]. apply classify_iff; assumption.
Qed.
(** and it is converted, once the date is right and the HTTP parser accepts the content *)
Theorem C51_always_decided : forall t st r url date text ct content,
  byte_prefixes (tr_resources t) -> byte_prefixes (tr_responses t) ->
  arc_record_at st r url date ct content -> dated (warc_datetime_str (clock (tr_asked t))) date text ->
  ((exists u, lower url = B "http" ++ u) -> parses http_gz content) ->
  exists d t' st', convert http_gz uuid clock t st r = (Ret [d], t', st').
Proof.
  intros t st r url date text ct content H1 H2 (Eu & Ed & Et & r' & st' & Ec) Hd Hp. unfold convert. rewrite (not_filedesc _ Et). unfold convert_record. rewrite Eu, Ed, Ec.
  rewrite known_type_eq.
  assert (Hcl : exists type ct', classify http_gz t url (known_type ct) content = Ret (type, ct')).
  { unfold classify. destruct (any_prefix_iff _ url H1) as (b1 & E1 & _). destruct (any_prefix_iff _ url H2) as (b2 & E2 & _).
    rewrite E1. cbn [bind]. destruct b1; [eauto|]. rewrite E2. cbn [bind]. destruct b2; [eauto|].
    destruct (startswith (B "http") (lower url)) eqn:Eh; [|eauto]. apply startswith_iff in Eh.
    destruct (Hp Eh) as [Hw|Hw]; [rewrite (is_http_true _ _ Hw)|rewrite (is_http_false _ _ Hw)]; cbn [bind]; eauto. }
  destruct Hcl as (type & ct' & Hcl).
  destruct date as [|c date].
  - change (classify http_gz (tick t) url (known_type ct) content) with (classify http_gz t url (known_type ct) content). rewrite Hcl. eauto.
  - destruct (dated_means _ _ _ Hd) as (dt & -> & _); [discriminate|]. rewrite Hcl. eauto.
Qed.
(** the rule is never ambiguous *)
Theorem C51_one_answer : forall resources responses url ct content type1 ct1 type2 ct2,
  byte_prefixes resources -> byte_prefixes responses ->
  kind http_gz resources responses url ct content type1 ct1 -> kind http_gz resources responses url ct content type2 ct2 ->
  type1 = type2 /\ ct1 = ct2.
Proof.
  intros resources responses url ct content type1 ct1 type2 ct2 H1 H2 K1 K2.
  set (t := mktr None None [] resources responses 0).
  apply (classify_iff http_gz t url ct content) in K1; [|assumption..]. apply (classify_iff http_gz t url ct content) in K2; [|assumption..].
  rewrite K1 in K2. injection K2 as <- <-. auto.
Qed.
(** an URL that does not start with http is a response whatever its content - also dns: *)
Theorem C51_other_schemes : forall t st r url date ct content ds t' st',
  tr_resources t = [] -> tr_responses t = [] -> arc_record_at st r url date ct content ->
  (forall u, lower url <> B "http" ++ u) ->
  convert http_gz uuid clock t st r = (Ret ds, t', st') ->
  exists d, ds = [d] /\ header_is "WARC-Type" d (B "response") /\ df_type d = known_type ct.
Proof.
  intros t st r url date ct content ds t' st' H1 H2 Ha Hn H.
  assert (N : forall ps, ps = [] -> byte_prefixes ps /\ ~ starts_with_one ps url).
  { intros ps ->. split; [intros []|]. intros (p & x & [] & _). }
  destruct (N _ H1) as [B1 N1]. destruct (N _ H2) as [B2 N2].
  destruct (C51_type_by_rule _ _ _ _ _ _ _ _ _ _ B1 B2 Ha H) as (d & -> & _ & type & Ht & Hk). exists d. split; [reflexivity|].
  destruct (C51_one_answer _ _ _ _ _ _ _ _ _ B1 B2 Hk (KOther http_gz _ _ url (known_type ct) content N1 N2 Hn)) as [<- ->]. auto.
Qed.
(** prefixes given on the command line are text: the first record that is not a filedesc
    record ends the conversion with TypeError *)
Theorem C51_text_prefixes_fail : forall t st r url date text ct content ps,
  tr_resources t = PText :: ps -> arc_record_at st r url date ct content -> dated (warc_datetime_str (clock (tr_asked t))) date text ->
  exists t' st', convert http_gz uuid clock t st r = (Raise ETypeError, t', st').
Proof.
  intros t st r url date text ct content ps Hp (Eu & Ed & Et & r' & st' & Ec) Hd. unfold convert. rewrite (not_filedesc _ Et). unfold convert_record. rewrite Eu, Ed, Ec.
  rewrite known_type_eq. assert (Hcl : classify http_gz t url (known_type ct) content = Raise ETypeError) by (unfold classify; rewrite Hp; reflexivity).
  destruct date as [|c date].
  - change (classify http_gz (tick t) url (known_type ct) content) with (classify http_gz t url (known_type ct) content). rewrite Hcl. eauto.
  - destruct (dated_means _ _ _ Hd) as (dt & -> & _); [discriminate|]. rewrite Hcl. eauto.
Qed.
(** what the HTTP parser raises on an http record ends the conversion *)
Theorem C51_parser_errors_escape : forall t st r url date text ct content e,
  tr_resources t = [] -> tr_responses t = [] -> arc_record_at st r url date ct content -> dated (warc_datetime_str (clock (tr_asked t))) date text ->
  (exists u, lower url = B "http" ++ u) -> Http.feed http_gz (Http.new_response [] []) content = Raise e ->
  exists t' st', convert http_gz uuid clock t st r = (Raise e, t', st').
Proof.
  intros t st r url date text ct content e H1 H2 (Eu & Ed & Et & r' & st' & Ec) Hd Hu Hf. unfold convert. rewrite (not_filedesc _ Et). unfold convert_record. rewrite Eu, Ed, Ec.
  rewrite known_type_eq. assert (Hcl : classify http_gz t url (known_type ct) content = Raise e).
  { unfold classify. rewrite H1, H2. cbn [any_prefix bind]. apply startswith_iff in Hu. rewrite Hu. unfold is_http_response. rewrite Hf. reflexivity. }
  destruct date as [|c date].
  - change (classify http_gz (tick t) url (known_type ct) content) with (classify http_gz t url (known_type ct) content). rewrite Hcl. eauto.
  - destruct (dated_means _ _ _ Hd) as (dt & -> & _); [discriminate|]. rewrite Hcl. eauto.
Qed.

(** ** C52 *)
Lemma date_header t st r url date ct content ds t' st' : arc_record_at st r url date ct content ->
  convert http_gz uuid clock t st r = (Ret ds, t', st') ->
  exists d dt, ds = [d] /\ (date = [] -> dt = clock (tr_asked t)) /\ (date <> [] -> arc_record_date date = Some dt) /\
    header_is "WARC-Date" d (warc_datetime_str dt).
Proof.
  intros Ha H. destruct (convert_cases _ _ _ _ _ _ _ _ _ _ Ha H) as (dt & ip & type & ct' & D1 & D2 & Hip & _ & ->).
  eexists; exists dt. split; [reflexivity|]. split; [exact D1|]. split; [exact D2|]. destruct (ip_names _ Hip) as [[v|] -> ]; reflexivity.
Qed.
Theorem C52_fourteen_digits : forall t st r url ct content ds t' st' Y M D h mi s,
  digits 4 Y -> digits 2 M -> digits 2 D -> digits 2 h -> digits 2 mi -> digits 2 s ->
  calendar (number Y) (number M) (number D) -> clock_time (number h) (number mi) (number s) ->
  arc_record_at st r url (Y ++ M ++ D ++ h ++ mi ++ s) ct content ->
  convert http_gz uuid clock t st r = (Ret ds, t', st') ->
  exists d, ds = [d] /\
    header_is "WARC-Date" d (Y ++ B "-" ++ M ++ B "-" ++ D ++ B "T" ++ h ++ B ":" ++ mi ++ B ":" ++ s ++ B "Z").
Proof.
  intros t st r url ct content ds t' st' Y M D h mi s HY HM HD Hh Hmi Hs Hc Hk Ha H.
  destruct (date_header _ _ _ _ _ _ _ _ _ _ Ha H) as (d & dt & -> & _ & D2 & Hd). exists d. split; [reflexivity|].
  destruct (arc_date_14 Y M D h mi s HY HM HD Hh Hmi Hs Hc Hk) as (dt' & E1 & E2).
  assert (Hn : Y ++ M ++ D ++ h ++ mi ++ s <> []) by (destruct Y; [destruct HY; discriminate|discriminate]).
  rewrite (D2 Hn) in E1. injection E1 as ->. rewrite E2 in Hd. exact Hd.
Qed.
Theorem C52_eight_digits : forall t st r url ct content ds t' st' Y M D,
  digits 4 Y -> digits 2 M -> digits 2 D -> calendar (number Y) (number M) (number D) ->
  arc_record_at st r url (Y ++ M ++ D) ct content ->
  convert http_gz uuid clock t st r = (Ret ds, t', st') ->
  exists d, ds = [d] /\ header_is "WARC-Date" d (Y ++ B "-" ++ M ++ B "-" ++ D ++ B "T00:00:00Z").
Proof.
  intros t st r url ct content ds t' st' Y M D HY HM HD Hc Ha H.
  destruct (date_header _ _ _ _ _ _ _ _ _ _ Ha H) as (d & dt & -> & _ & D2 & Hd). exists d. split; [reflexivity|].
  destruct (arc_date_8 Y M D HY HM HD Hc) as (dt' & E1 & E2).
  assert (Hn : Y ++ M ++ D <> []) by (destruct Y; [destruct HY; discriminate|discriminate]).
  rewrite (D2 Hn) in E1. injection E1 as ->. rewrite E2 in Hd. exact Hd.
Qed.
(** the valid dates among the strings of fourteen and of eight bytes: digits (the day may
    be a space and a digit) that name a day of the calendar and a time of the day *)
Definition valid14 (date : bytes) : Prop :=
  exists Y M D h mi s, date = Y ++ M ++ D ++ h ++ mi ++ s /\
    digits 4 Y /\ digits 2 M /\ day_text D /\ digits 2 h /\ digits 2 mi /\ digits 2 s /\
    calendar (number Y) (number M) (number D) /\ clock_time (number h) (number mi) (number s).
Definition valid8 (date : bytes) : Prop :=
  exists Y M D, date = Y ++ M ++ D /\ digits 4 Y /\ digits 2 M /\ day_text D /\ calendar (number Y) (number M) (number D).
Theorem C52_invalid_dates_raise : forall t st r url date,
  rec_url r = Some url -> rec_date r = Some date -> rec_type r <> Some (B "filedesc") ->
  (List.length date = 14 /\ ~ valid14 date) \/ (List.length date = 8 /\ ~ valid8 date) \/
  (0 < List.length date < 6) \/ 14 < List.length date ->
  convert http_gz uuid clock t st r = (Raise EValueError, t, st).
Proof.
  intros t st r url date Eu Ed Et H. unfold convert. rewrite (not_filedesc _ Et). unfold convert_record. rewrite Eu, Ed.
  assert (Hn : date <> []) by (destruct date; [cbn in H; lia|discriminate]).
  assert (E : arc_record_date date = None).
  { destruct (arc_record_date date) as [dt|] eqn:E; [exfalso|reflexivity]. destruct H as [[L H]|[[L H]|H]].
    - apply H. exact (arc_date_14_only _ _ L E).
    - apply H. exact (arc_date_8_only _ _ L E).
    - apply arc_date_length in E. lia. }
  destruct date as [|c date]; [contradiction|]. rewrite E. reflexivity.
Qed.
(** a date of twelve digits - year to minute - is taken for a time with one-digit minutes
    and seconds *)
Theorem C52_twelve_digits_misread : forall Y M D h a b,
  digits 4 Y -> digits 2 M -> digits 2 D -> digits 2 h -> (48 <= a <= 57)%N -> (48 <= b <= 57)%N ->
  calendar (number Y) (number M) (number D) -> (number h <= 23)%N ->
  exists dt, arc_record_date (Y ++ M ++ D ++ h ++ [a; b]) = Some dt /\
    warc_datetime_str dt = warc_date Y M D h [48%N; a] [48%N; b].
Proof.
  intros Y M D h a b HY HM HD Hh Ha Hb Hc Hk. pose proof (number4_small Y HY) as Hsm. pose proof (calendar_bounds _ _ _ Hc) as [Bm Bd].
  assert (Em : match_format FORMAT14 (Y ++ M ++ D ++ h ++ [a; b]) = Some ([Y; M; D; h; [a]; [b]], [])).
  { unfold FORMAT14. cbn [match_format]. apply four_Y; [exact HY|]. two HM e f He Hf. two HD g i Hg Hi. two Hh j k Hj Hkk.
    rewrite number2 in Bm, Bd, Hk by assumption. cbn [app].
    apply two_m; [assumption..| |exact Bm]. apply two_d; [assumption..| |exact Bd]. apply two_H; [assumption..| |exact Hk].
    unfold F_M, F_S. cbn [try_alts take_alt]. unfold any_digit, one, rng.
    branch; cbn iota beta; branch; reflexivity. }
  unfold arc_record_date, strptime. rewrite Em.
  assert (Ea : number [a] = (a - 48)%N) by (unfold number; cbn [fold_left]; rewrite is_digit_iff by exact Ha; lia).
  assert (Eb : number [b] = (b - 48)%N) by (unfold number; cbn [fold_left]; rewrite is_digit_iff by exact Hb; lia).
  assert (E : new_datetime (number Y) (number M) (number D) (number h) (number [a]) (number [b]) =
    Some (mkdt (number Y) (number M) (number D) (number h) (number [a]) (number [b]) 0)).
  { apply new_datetime_iff; [exact Hsm|]. split; [exact Hc|]. split; [|reflexivity]. rewrite Ea, Eb. repeat split; lia. }
  rewrite E. eexists. split; [reflexivity|]. rewrite warc_datetime_str_eq. cbn [dt_year dt_month dt_day dt_hour dt_min dt_sec].
  rewrite !pad2_number, pad4_number by assumption.
  assert (P : forall x, (48 <= x <= 57)%N -> pad2 (number [x]) = [48%N; x]).
  { intros x Hx. replace (number [x]) with (x - 48)%N by (unfold number; cbn [fold_left]; rewrite is_digit_iff by exact Hx; lia).
    unfold pad2, dig. f_equal; [|f_equal]; destruct (digit_form x Hx) as (y & -> & Hy).
    - replace (48 + y - 48)%N with y by lia. rewrite N.div_small by lia. reflexivity.
    - replace (48 + y - 48)%N with y by lia. rewrite N.mod_small by lia. reflexivity. }
  rewrite !P by assumption. reflexivity.
Qed.

(** ** C50: when the conversion fails *)
(** the id of a record is made of its URL and date only: two captures of the same URL in
    the same second get the same id *)
Theorem C50_equal_url_and_date_equal_id : forall t1 t2 st1 st2 r1 r2 url date ct1 ct2 content1 content2 d1 d2 t1' t2' st1' st2',
  arc_record_at st1 r1 url date ct1 content1 -> arc_record_at st2 r2 url date ct2 content2 ->
  convert http_gz uuid clock t1 st1 r1 = (Ret [d1], t1', st1') -> convert http_gz uuid clock t2 st2 r2 = (Ret [d2], t2', st2') ->
  header_is "WARC-Record-ID" d1 (uuid (url ++ date)) /\ header_is "WARC-Record-ID" d2 (uuid (url ++ date)).
Proof.
  assert (G : forall t st r url date ct content d t' st', arc_record_at st r url date ct content -> convert http_gz uuid clock t st r = (Ret [d], t', st') ->
    header_is "WARC-Record-ID" d (uuid (url ++ date))).
  { intros t st r url date ct content d t' st' Ha H. destruct (convert_cases _ _ _ _ _ _ _ _ _ _ Ha H) as (dt & ip & type & ct' & _ & _ & Hip & _ & E).
    injection E as ->. destruct (ip_names _ Hip) as [[v|] -> ]; reflexivity. }
  intros t1 t2 st1 st2 r1 r2 url date ct1 ct2 content1 content2 d1 d2 t1' t2' st1' st2' A1 A2 H1 H2.
  split; [exact (G _ _ _ _ _ _ _ _ _ _ A1 H1)|exact (G _ _ _ _ _ _ _ _ _ _ A2 H2)].
Qed.
(** an ARC record before any filedesc record has no warcinfo id: it is converted, but
    writing it raises TypeError *)
Theorem C50_no_filedesc_cannot_write : forall gz out t st r url date ct content ds t' st' st2,
  tr_id t = None -> arc_record_at st r url date ct content ->
  convert http_gz uuid clock t st r = (Ret ds, t', st') ->
  exists written, write_drafts gz ds out st2 = (Raise ETypeError, out ++ written, st2).
Proof.
  intros gz out t st r url date ct content ds t' st' st2 Hi Ha H.
  destruct (convert_cases _ _ _ _ _ _ _ _ _ _ Ha H) as (dt & ip & type & ct' & _ & _ & Hip & _ & ->).
  cbn [write_drafts]. unfold write_draft. cbn [df_headers]. rewrite Hi. cbn [app writable].
  destruct gz as [z|]; eexists; reflexivity.
Qed.
(** with an output file name (-o) the first filedesc record is converted, but its warcinfo
    record cannot be written *)
Theorem C50_output_option_fails : forall gz out t st r ds t' st' st2,
  tr_output t = Some None -> rec_type r = Some (B "filedesc") ->
  convert http_gz uuid clock t st r = (Ret ds, t', st') ->
  exists written, write_drafts gz ds out st2 = (Raise ETypeError, out ++ written, st2).
Proof.
  intros gz out t st r ds t' st' st2 Ho Ht. unfold convert. rewrite Ht. change (is_some_eq (Some (B "filedesc")) V_FILEDESC) with true. cbn iota.
  unfold convert_filedesc. rewrite Ho. destruct (rec_url r) as [url|]; [|discriminate].
  destruct (match rec_date r with Some ((_ :: _) as d) => match arc_filedesc_date d with Some dt => Ret (warc_datetime_str dt) | None => Raise EValueError end | _ => Ret (warc_datetime_str (clock (tr_asked t))) end) as [md| |]; try discriminate.
  destruct (rec_date r) as [date|]; [|discriminate]. destruct (arc_raw r st) as [[[raw| |] r'] st3]; try discriminate.
  intro H. injection H as <- _ _. cbn [write_drafts]. unfold write_draft. cbn [df_headers app writable].
  destruct gz as [z|]; eexists; reflexivity.
Qed.
(** through the API the file name can be given as bytes: then the warcinfo record of every filedesc record names it,
    and nothing else changes *)
Definition named (t : transformer) (name : bytes) : transformer :=
  mktr (tr_id t) (Some (Some name)) (tr_fields t) (tr_resources t) (tr_responses t) (tr_asked t).
Definition with_filename (name : bytes) (desc : bool) (ds : list draft) : list draft :=
  match desc, ds with
  | true, info :: more => mkdraft (df_headers info ++ [(B "WARC-Filename", Some name)]) (df_type info) (df_body info) :: more
  | _, _ => ds
  end.
Theorem C50_output_name_recorded : forall name t st r o t' st',
  tr_output t = None -> convert http_gz uuid clock t st r = (o, t', st') ->
  convert http_gz uuid clock (named t name) st r =
    (match o with Ret ds => Ret (with_filename name (is_some_eq (rec_type r) (B "filedesc")) ds) | x => x end, named t' name, st').
Proof.
  intros name t st r o t' st' Ho. unfold convert. change V_FILEDESC with (B "filedesc").
  destruct (is_some_eq (rec_type r) (B "filedesc")).
  - unfold convert_filedesc. rewrite Ho. cbn [named tr_output tr_asked tr_fields]. destruct (rec_url r) as [url|]; [|intro H; injection H as <- <- <-; reflexivity].
    destruct (match rec_date r with Some ((_ :: _) as d) => match arc_filedesc_date d with Some dt => Ret (warc_datetime_str dt) | None => Raise EValueError end | _ => Ret (warc_datetime_str (clock (tr_asked t))) end) as [md| |];
      try (intro H; injection H as <- <- <-; reflexivity).
    destruct (rec_date r) as [date|]; [|intro H; injection H as <- <- <-; reflexivity].
    destruct (arc_raw r st) as [[[raw| |] r'] st3]; intro H; injection H as <- <- <-; reflexivity.
  - unfold convert_record. destruct (rec_url r) as [url|]; [|intro H; injection H as <- <- <-; reflexivity].
    destruct (rec_date r) as [date|]; [|intro H; injection H as <- <- <-; reflexivity].
    assert (Ew : (match date with [] => (Some (clock (tr_asked (named t name))), tick (named t name)) | _ => (arc_record_date date, named t name) end)
      = let '(w, t1) := match date with [] => (Some (clock (tr_asked t)), tick t) | _ => (arc_record_date date, t) end in (w, named t1 name)) by (destruct date; reflexivity).
    rewrite Ew. clear Ew. destruct (match date with [] => (Some (clock (tr_asked t)), tick t) | _ => (arc_record_date date, t) end) as [[dt|] t1];
      [|intro H; injection H as <- <- <-; reflexivity].
    destruct (rec_content r st) as [[[[[ct0|] [content|]]| |] r'] st1]; try (intro H; injection H as <- <- <-; reflexivity).
    change (classify http_gz (named t1 name)) with (classify http_gz t1). change (tr_id (named t1 name)) with (tr_id t1).
    destruct (classify http_gz t1 url _ content) as [[type ct']| |]; intro H; injection H as <- <- <-; reflexivity.
Qed.
(** a record without URL or date cannot be converted *)
Theorem C50_missing_field_raises : forall t st r,
  rec_type r <> Some (B "filedesc") -> rec_url r = None \/ rec_date r = None ->
  convert http_gz uuid clock t st r = (Raise ETypeError, t, st).
Proof.
  intros t st r Ht H. unfold convert. rewrite (not_filedesc _ Ht). unfold convert_record.
  destruct H as [H|H]; rewrite H; [|destruct (rec_url r)]; reflexivity.
Qed.
End More.

(** ** Concrete cases that meet the hypotheses *)
Definition digitsb (n : nat) (s : bytes) : bool := Nat.eqb (List.length s) n && forallb is_digit s.
Lemma digitsb_sound n s : digitsb n s = true -> digits n s.
Proof.
  intro H. apply andb_true_iff in H as [H1 H2]. apply Nat.eqb_eq in H1. split; [exact H1|]. intros c Hc. rewrite forallb_forall in H2.
  apply H2 in Hc. unfold is_digit in Hc. apply andb_true_iff in Hc as [A C]. apply N.leb_le in A, C. lia.
Qed.
Definition calendarb (y m d : N) : bool :=
  (N.leb 1 y && N.leb y 9999 && N.leb 1 m && N.leb m 12 && N.leb 1 d && N.leb d (month_days y m))%bool.
Lemma calendarb_sound y m d : calendarb y m d = true -> calendar y m d.
Proof.
  intro H. apply calendar_iff; [|exact H]. unfold calendarb in H. apply andb_true_iff in H as [H _]. apply andb_true_iff in H as [H _].
  apply andb_true_iff in H as [H _]. apply andb_true_iff in H as [H _]. apply andb_true_iff in H as [_ H]. apply N.leb_le. exact H.
Qed.
Lemma dated14 now (Y M D h mi s : bytes) :
  digitsb 4 Y && digitsb 2 M && digitsb 2 D && digitsb 2 h && digitsb 2 mi && digitsb 2 s &&
  calendarb (number Y) (number M) (number D) && (N.leb (number h) 23 && N.leb (number mi) 59 && N.leb (number s) 59) = true ->
  dated now (Y ++ M ++ D ++ h ++ mi ++ s) (warc_date Y M D h mi s).
Proof.
  rewrite !andb_true_iff, !N.leb_le. intros (((((((H1 & H2) & H3) & H4) & H5) & H6) & H7) & ((H8 & H9) & H10)).
  apply Dated14; try (apply digitsb_sound; assumption); [apply calendarb_sound; assumption|]. repeat split; assumption.
Qed.
Definition ex_http : unit_ :=
  UArc (map B ["http://h.org/x"; "1.2.3.4"; "20200229235959"; "text/html"; "40"]%string) false
    (B "HTTP/1.0 200 OK" ++ CRLF ++ B "Content-Length: 2" ++ CRLF ++ CRLF ++ B "hi").
Definition ex_dns : unit_ :=
  UArc (map B ["dns:h.org"; "0.0.0.0"; "20200102"; "text/dns"; "3"]%string) false (B "1 A").
Definition ex_convert : units := [(ex_desc, [LF]); (ex_http, [LF]); (ex_dns, [LF]); (ex_warc, [CR; LF; CR; LF]); (ex_arc, [])].
Definition ex_clock (n : nat) : datetime := mkdt 2024 1 2 3 4 5 678.
Definition ex_uuid (x : bytes) : bytes := B "<urn:uuid:0>".
Definition no_gz (x : bytes) : outcome bytes := Raise EValueError.
Definition ex_input : input := mkin (B "a.arc") (units_text ex_convert).

Lemma ex_convert_ok : units_ok [] ex_convert.
Proof.
  destruct ex_units_ok as (_ & S1 & _ & _ & _ & S3 & _ & S0 & _). pose proof (ex_desc_ok []) as U1.
  assert (W : wrec_ok (mkw (B "WARC/1.0") [(B "WARC-Type", B "resource"); (B "Content-Length", B "3")] (B "abc"))) by (apply wrec_okb_sound; reflexivity).
  assert (H : unit_ok ex_names ex_http) by (split; [apply fields_okb_sound; reflexivity|]; split; reflexivity).
  assert (D : unit_ok ex_names ex_dns) by (split; [apply fields_okb_sound; reflexivity|]; split; reflexivity).
  exact (conj U1 (conj S1 (conj H (conj S1 (conj D (conj S1 (conj W (conj S3 (conj ex_arc_ok (conj S0 I)))))))))).
Qed.
Lemma ex_kind url ct body type ct' : classify no_gz (tr [] [] [] (None, 0)) url ct body = Ret (type, ct') -> kind no_gz [] [] url ct body type ct'.
Proof. intro H. apply (classify_iff no_gz (tr [] [] [] (None, 0)) url ct body type ct') in H; [exact H|intros []|intros []]. Qed.
Definition ex_now : bytes := B "2024-01-02T03:04:05Z".
Lemma ex_becomes_any (uuid : bytes -> bytes) : exists ws final, becomes_files uuid ex_clock no_gz [] [] [] [ex_convert] (None, 0) ws final /\ List.length ws = 6 /\
  map (fun w => first_header (B "WARC-Type") (w_headers w)) ws =
    map (fun x => Some (B x)) ["warcinfo"; "metadata"; "response"; "response"; "resource"; "resource"]%string /\
  map (fun w => first_header (B "WARC-Date") (w_headers w)) ws =
    [Some ex_now; Some (B "2020-01-01T00:00:00Z"); Some (B "2020-02-29T23:59:59Z"); Some (B "2020-01-02T00:00:00Z"); None; Some (B "2020-01-02T03:04:05Z")].
Proof.
  assert (Cons : forall names u sep a s1 ws s2 ws' s3, becomes uuid ex_clock no_gz [] [] [] names u s1 ws s2 ->
    becomes_all uuid ex_clock no_gz [] [] [] (names_after names u) a s2 ws' s3 ->
    becomes_all uuid ex_clock no_gz [] [] [] names ((u, sep) :: a) s1 (ws ++ ws') s3) by (intros; econstructor; eassumption).
  do 2 eexists. split.
  - eapply BFcons; [|apply BFnil]. unfold ex_convert.
    eapply Cons; [apply BDesc|].
    { eapply DescBecomes; [reflexivity|reflexivity| |left; reflexivity].
      apply (Desc14 _ (B "2020") (B "01") (B "01") (B "00") (B "00") (B "00") []); try (apply digitsb_sound; reflexivity); [apply calendarb_sound; reflexivity|repeat split; vm_compute; discriminate]. }
    eapply Cons; [apply BArc|].
    { eapply ArcBecomes; [reflexivity|reflexivity|reflexivity| |].
      - apply (dated14 _ (B "2020") (B "02") (B "29") (B "23") (B "59") (B "59")). reflexivity.
      - apply ex_kind. vm_compute. reflexivity. }
    eapply Cons; [apply BArc|].
    { eapply ArcBecomes; [reflexivity|reflexivity|reflexivity| |].
      - apply (Dated8 _ (B "2020") (B "01") (B "02")); try (apply digitsb_sound; reflexivity). apply calendarb_sound; reflexivity.
      - apply ex_kind. vm_compute. reflexivity. }
    eapply Cons; [apply BWarc|].
    eapply Cons; [apply BArc|apply BAnil].
    { eapply ArcBecomes; [reflexivity|reflexivity|reflexivity| |].
      - apply (dated14 _ (B "2020") (B "01") (B "02") (B "03") (B "04") (B "05")). reflexivity.
      - apply ex_kind. vm_compute. reflexivity. }
  - split; [reflexivity|]. split; reflexivity.
Qed.
Example C50_hypotheses_met :
  Forall2 (holds_units (fun x => x)) [ex_input] [ex_convert] /\ Forall (all_tidy []) [ex_convert] /\ (forall x, value_ok (ex_uuid x)) /\
  exists ws final, becomes_files ex_uuid ex_clock no_gz [] [] [] [ex_convert] (None, 0) ws final /\ List.length ws = 6.
Proof.
  split.
  { constructor; [|constructor]. split; [apply ex_convert_ok|]. split; [repeat constructor|]. left.
    split; [|split; [intros t E; discriminate|reflexivity]]. intros t E. apply (f_equal (endswith (B ".gz"))) in E.
    change (endswith (B ".gz") (in_name ex_input)) with false in E.
    assert (endswith (B ".gz") (t ++ B ".gz") = true) by (apply endswith_iff; eauto). congruence. }
  split.
  { constructor; [|constructor]. repeat split; try (repeat constructor; reflexivity). intros t E. vm_compute in E. injection E as <-. reflexivity. }
  split; [intro x; apply tidy_value; [intros c Hc; cbn in Hc; repeat (destruct Hc as [<-|Hc]; [reflexivity|]); destruct Hc|reflexivity]|].
  destruct (ex_becomes_any ex_uuid) as (ws & final & H & E & _). exists ws, final. split; assumption.
Qed.
Definition ex_record (date : string) : record :=
  with_cf (with_content (unit_rec ex_names (UArc (map B ["http://h.org/x"; "1.2.3.4"; date; "text/html"; "2"]%string) false (B "hi")))
    (Some (B "text/html"), Some (B "hi"))) CF_none.
Definition ex_st : stream := new_stream SPlain (mkfile [] 0 true) (PArc arc_init).
Example C51_C52_hypotheses_met :
  arc_record_at ex_st (ex_record "20200229235959") (B "http://h.org/x") (B "20200229235959") (B "text/html") (B "hi") /\
  dated ex_now (B "20200229235959") (B "2020-02-29T23:59:59Z") /\
  (exists u, lower (B "http://h.org/x") = B "http" ++ u) /\ parses no_gz (B "hi") /\
  ~ valid8 (B "20201301") /\
  exists e, Http.feed no_gz (Http.new_response [] []) (B "HTTP/1.0 200 OK" ++ CRLF ++ B "Content-Length: x" ++ CRLF ++ CRLF) = Raise e.
Proof.
  split; [split; [reflexivity|]; split; [reflexivity|]; split; [discriminate|]; eexists; eexists; reflexivity|].
  split; [apply (dated14 _ (B "2020") (B "02") (B "29") (B "23") (B "59") (B "59")); reflexivity|].
  split; [eexists; reflexivity|].
  split; [right; eexists; eexists; split; [vm_compute; reflexivity|right; reflexivity]|].
  split.
  - intros (Y & M & D & E & HY & HM & HD & Hc).
    destruct (digits4 Y HY) as (a & b & c & d & -> & _). destruct (digits2 M HM) as (e & f & -> & _). cbn in E. injection E as <- <- <- <- <- <- _.
    destruct Hc as (_ & l & Hl & _). apply last_day_month in Hl. vm_compute in Hl. destruct Hl as [_ Hl]. apply Hl. reflexivity.
  - eexists. vm_compute. reflexivity.
Qed.
