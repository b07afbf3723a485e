(** C45 - C47: warc2warc and warcfilter. *)
From Verif Require HttpTidy.
From Verif Require Export ToolFacts.
From Coq Require Import String List Lia.
Open Scope list_scope.

(** ** Specification *)
(** how one record appears in the output: plain, or as a gzip member *)
Definition in_output (gz : option gzipper) (text : bytes) : bytes :=
  match gz with None => text | Some deflate => deflate text end.
(** and what is left of a text whose writing was broken off by an exception *)
Definition torn_output (gz : option gzipper) (text : bytes) : bytes :=
  match gz with None => text | Some g => torn g text end.
(** the canonical text of a record: CR LF line ends, 'Name: value', CR LF CR LF after
    the payload *)
Definition canonical (w : wrec) : bytes := wrec_text w ++ terminator.
(** the canonical text once the content has been read into memory: Content-Type and
    Content-Length lines come last and are made from the content *)
Definition from_memory (w : wrec) : wrec :=
  tuple_wrec (w_version w) (w_headers w) (first_header (B "Content-Type") (w_headers w)) (w_body w).
(** the records of several archives *)
Definition records (l : list archive) : list wrec := concat (map (map fst) l).
Definition grecords (l : list garchive) : list grec := concat (map (map fst) l).
(** the file holds the archive *)
Definition holds_archive (gunzip : bytes -> bytes) (i : input) (a : archive) : Prop :=
  archive_ok a /\ file_holds gunzip i (archive_text a).

(** ** Writing what was read *)
Lemma emit_handed gz out st r v hs left after :
  r_class r = RWarc v -> r_headers r = hs -> r_cf r = CF_stream -> r_valid r = true -> in_payload st left after ->
  emit gz out st r = (Ret tt, out ++ in_output gz (wrec_text (mkw v hs left) ++ terminator), moved st (length left) 0).
Proof.
  intros H1 H2 H3 H4 Hi. unfold emit. rewrite (write_handed gz r v hs st left after H1 H2 H3 H4 Hi).
  unfold wrec_text. cbn [w_version w_headers w_body]. rewrite <- app_assoc. destruct gz; reflexivity.
Qed.
Lemma emit_memory gz out st r v hs ct body :
  r_class r = RWarc v -> r_headers r = hs -> r_cf r = CF_none -> r_content r = Some (ct, Some body) ->
  emit gz out st r = (Ret tt, out ++ in_output gz (wrec_text (tuple_wrec v hs ct body) ++ terminator), st).
Proof.
  intros H1 H2 H3 H4. unfold emit. rewrite (write_tuple_gen gz r v hs ct (Some body) st H1 H2 H4 H3). destruct gz; reflexivity.
Qed.
Lemma Forall2_len {A C} (R : A -> C -> Prop) l l' : Forall2 R l l' -> length l = length l'.
Proof. induction 1; cbn [length]; congruence. Qed.
Lemma concat_pairs {A C} (f : A -> bytes) (files : list C) (l : list (list (A * bytes))) : length files = length l ->
  concat (map (fun p => concat (map f (map fst (snd p)))) (combine files l)) = concat (map f (concat (map (map fst) l))).
Proof.
  revert l. induction files as [|i files IH]; intros [|a l] H; try discriminate; [reflexivity|].
  cbn [combine map concat snd]. rewrite IH by (injection H; auto). rewrite map_app, concat_app. reflexivity.
Qed.

(** ** C45 *)
Lemma w2w_copies gz hg uz ug a :
  forall out name st, at_text st 0 (archive_text a) -> archive_ok a -> s_parser st = PWarc -> s_kind st <> SGzipFile ->
   each_record (w2w_process hg uz ug gz false) out name st =
     (Ret tt, out ++ concat (map (fun w => in_output gz (canonical w)) (map fst a))).
Proof.
  intros out name st Hat Hok Hp Hk. unfold each_record.
  destruct (for_records_archive (w2w_process hg uz ug gz false) (fun acc w => acc ++ in_output gz (canonical w)) a out st 0) as [st' E]; try assumption.
  - intros s st0 w sep after _ Hi. eexists. split; [|apply used_all].
    unfold w2w_process. cbn [andb]. rewrite (emit_handed gz s st0 (handed w) (w_version w) (w_headers w) (w_body w) after eq_refl eq_refl eq_refl eq_refl Hi).
    destruct w; reflexivity.
  - rewrite E, fold_app. reflexivity.
Qed.
Theorem C45_copies_every_record : forall gunzip http_gz unzlib ungzip (gz : option gzipper) (files : list input) (l : list archive),
  Forall2 (holds_archive gunzip) files l ->
  warc2warc gunzip http_gz unzlib ungzip gz false files =
  (Ret tt, concat (map (fun w => in_output gz (canonical w)) (records l))).
Proof.
  intros gunzip hg uz ug gz files l H. unfold warc2warc.
  rewrite (over_files_all gunzip _ (holds_archive gunzip) (fun _ a => concat (map (fun w => in_output gz (canonical w)) (map fst a)))) with (l := l).
  - cbn [app]. f_equal. refine (concat_pairs _ files l _). apply (Forall2_len _ _ _ H).
  - intros i a out [Hok Hi]. destruct (open_holds _ _ _ Hi) as (st & Eo & Hat & Hp & Hk). exists st. split; [exact Eo|].
    apply (w2w_copies gz hg uz ug a); assumption.
  - exact H.
Qed.
Lemma records_one l : records [map (fun w => (w, terminator)) l] = l.
Proof. unfold records. cbn [map concat]. rewrite app_nil_r, map_map. apply map_id. Qed.
Lemma canonical_archive l : concat (map canonical l) = archive_text (map (fun w => (w, terminator)) l).
Proof. unfold archive_text, canonical. rewrite map_map. reflexivity. Qed.
Lemma not_magic a t : archive_ok a -> archive_text a <> [31; 139]%N ++ t.
Proof.
  intros H E. destruct a as [|[w s] a]; [discriminate|]. inversion H as [|? ? [(Hv & _) _] _]; subst. cbn [fst] in Hv.
  rewrite archive_text_cons in E. unfold wrec_text, head_text in E. unfold versions in Hv.
  revert E. destruct Hv as [<-|[<-|[<-|[]]]]; cbn; discriminate.
Qed.
(** an archive in canonical form is copied byte for byte *)
Theorem C45_identity_on_canonical : forall gunzip http_gz unzlib ungzip (i : input) (l : list wrec),
  Forall wrec_ok l -> plain_file i (concat (map canonical l)) ->
  warc2warc gunzip http_gz unzlib ungzip None false [i] = (Ret tt, in_data i).
Proof.
  intros gunzip hg uz ug i l Hl Hi. pose proof Hi as (_ & _ & Hd).
  rewrite (C45_copies_every_record gunzip hg uz ug None [i] [map (fun w => (w, terminator)) l]).
  - rewrite records_one. cbn [in_output]. rewrite Hd. reflexivity.
  - constructor; [|constructor]. split; [|left; rewrite <- canonical_archive; exact Hi].
    apply Forall_forall. intros [w s] Hin. apply in_map_iff in Hin as (w0 & E & Hin). injection E as <- <-.
    split; [|apply terminator_ok]. rewrite Forall_forall in Hl. auto.
Qed.
(** converting to one gzip member per record and back gives the canonical text *)
Theorem C45_compress_then_expand : forall gunzip http_gz unzlib ungzip (deflate : gzipper) (files : list input) (l : list archive) (name : bytes) (t : bytes),
  (forall ds, gunzip (concat (map deflate ds)) = concat ds) ->
  Forall2 (holds_archive gunzip) files l -> name = t ++ B ".gz" ->
  exists data, warc2warc gunzip http_gz unzlib ungzip (Some deflate) false files = (Ret tt, data) /\
    warc2warc gunzip http_gz unzlib ungzip None false [mkin name data] = (Ret tt, concat (map canonical (records l))).
Proof.
  intros gunzip hg uz ug deflate files l name t Hgz Hf ->. eexists. split; [apply (C45_copies_every_record gunzip hg uz ug (Some deflate) files l Hf)|].
  rewrite (C45_copies_every_record gunzip hg uz ug None _ [map (fun w => (w, terminator)) (records l)]).
  - rewrite records_one. reflexivity.
  - constructor; [|constructor]. split.
    + apply Forall_forall. intros [w s] Hin. apply in_map_iff in Hin as (w0 & E & Hin). injection E as <- <-. split; [|apply terminator_ok].
      cbn [fst]. unfold records in Hin. apply in_concat in Hin as (ws & Hws & Hin). apply in_map_iff in Hws as (a & <- & Ha).
      assert (Hok : archive_ok a).
      { clear - Hf Ha. induction Hf as [|i b fs l [Hb _] _ IH]; [destruct Ha|]. destruct Ha as [ -> |Ha]; [exact Hb|auto]. }
      apply in_map_iff in Hin as ([w1 s1] & <- & Hin). unfold archive_ok in Hok. rewrite Forall_forall in Hok. apply (Hok _ Hin).
    + right. split; [left; eexists; reflexivity|]. cbn [in_data in_output].
      assert (E : map (fun w => deflate (canonical w)) (records l) = map deflate (map canonical (records l))) by (rewrite map_map; reflexivity).
      rewrite E, Hgz. apply canonical_archive.
Qed.
(** archives in any accepted layout: line ends, folding, junk lines, a prefix before the
    version *)
Theorem C45_any_layout_made_canonical : forall gunzip http_gz unzlib ungzip (gz : option gzipper) (i : input) (a : garchive),
  garchive_ok a -> plain_file i (garchive_text a) ->
  warc2warc gunzip http_gz unzlib ungzip gz false [i] =
  (Ret tt, concat (map (fun g => in_output gz (canonical (g_wrec (fst g)))) a)).
Proof.
  intros gunzip hg uz ug gz i a Hok Hi. unfold warc2warc. cbn [over_files]. rewrite (open_plain gunzip i _ Hi). unfold each_record.
  match goal with |- context [for_records _ _ ?s] => set (st := s) end.
  destruct (gfor_records_archive (w2w_process hg uz ug gz false) (fun acc g => acc ++ in_output gz (canonical (g_wrec g))) a [] st 0) as [st' E]; try assumption; try reflexivity.
  - intros s st0 g sep after _ Hp. eexists. split; [|apply used_all].
    unfold w2w_process. cbn [andb].
    rewrite (emit_handed gz s st0 (g_handed g) (w_version (g_wrec g)) (w_headers (g_wrec g)) (g_body g) after eq_refl eq_refl eq_refl eq_refl Hp). reflexivity.
  - left. split; [reflexivity|]. exists []. split; [reflexivity|]. split; [split; [intros c []|left; reflexivity]|reflexivity].
  - rewrite E, fold_app, map_map. reflexivity.
Qed.

(** ** C46 *)
(** the content type and the bytes of a response record *)
Definition ctype (w : wrec) : option bytes := first_header (B "Content-Type") (w_headers w).
Definition is_response (w : wrec) : Prop := first_header (B "WARC-Type") (w_headers w) = Some (B "response").
Lemma is_some_eq_iff o b : is_some_eq o b = true <-> o = Some b.
Proof. destruct o as [a|]; cbn [is_some_eq]; [|split; discriminate]. rewrite bytes_eqb_eq. split; congruence. Qed.
Lemma rec_type_handed w : rec_type (handed w) = first_header (B "WARC-Type") (w_headers w).
Proof. unfold rec_type, handed, parsed_rec. cbn [r_class]. unfold get_header. apply lookup_first. Qed.
Lemma content_handed w st after : in_payload st (w_body w) after ->
  exists r', rec_content (handed w) st = (Ret (ctype w, Some (w_body w)), r', moved st (length (w_body w)) 0) /\
    r_class r' = RWarc (w_version w) /\ r_headers r' = w_headers w /\ r_cf r' = CF_none /\ r_content r' = Some (ctype w, Some (w_body w)).
Proof.
  intro Hi. rewrite (rec_content_payload (handed w) st (w_body w) after eq_refl eq_refl Hi).
  assert (Eg : get_header (handed w) (ct_name (handed w)) = ctype w) by (unfold get_header; apply lookup_first).
  rewrite Eg. eexists. split; [reflexivity|]. repeat split; reflexivity.
Qed.
(** the content is a whole HTTP message of the announced kind and nothing else *)
Definition whole_response (http_gz : bytes -> outcome bytes) (body : bytes) : Prop :=
  exists m, Http.feed http_gz (Http.new_response [] []) body = Ret (m, []) /\ Http.complete (Http.close m) = true.
(** it is not: there is more than one message, or the message is not complete *)
Definition partial_response (http_gz : bytes -> outcome bytes) (body : bytes) : Prop :=
  exists m more, Http.feed http_gz (Http.new_response [] []) body = Ret (m, more) /\
    (more <> [] \/ Http.complete (Http.close m) = false).
(** a record -D leaves alone *)
Definition untouched (http_gz : bytes -> outcome bytes) (w : wrec) : Prop :=
  ~ is_response w \/
  (ctype w <> Some (B "application/http;msgtype=response") /\ ctype w <> Some (B "application/http;msgtype=request")) \/
  (ctype w = Some (B "application/http;msgtype=response") /\ partial_response http_gz (w_body w)).
(** how it is written: a response has been read into memory *)
Definition decoded_copy (w : wrec) : bytes :=
  canonical (if is_some_eq (first_header (B "WARC-Type") (w_headers w)) (B "response") then from_memory w else w).
Lemma decode_untouched hg uz ug w : is_response w -> untouched hg w -> decode_step hg uz ug (ctype w) (w_body w) = Ret tt.
Proof.
  intros Hr [H|[[H1 H2]|[H (m & more & E & Hc)]]]; [contradiction| |]; unfold decode_step, http_message.
  - destruct (is_some_eq (ctype w) HTTP_REQUEST_TYPE) eqn:E1; [apply is_some_eq_iff in E1; contradiction|].
    destruct (is_some_eq (ctype w) HTTP_RESPONSE_TYPE) eqn:E2; [apply is_some_eq_iff in E2; contradiction|]. reflexivity.
  - rewrite H. change (is_some_eq (Some (B "application/http;msgtype=response")) HTTP_REQUEST_TYPE) with false.
    change (is_some_eq (Some (B "application/http;msgtype=response")) HTTP_RESPONSE_TYPE) with true. cbn iota.
    rewrite E. cbn [bind]. destruct more as [|c t]; [|reflexivity]. destruct Hc as [Hc|Hc]; [contradiction|]. rewrite Hc. reflexivity.
Qed.
Lemma w2w_decode_iterates hg uz ug gz a : Forall (fun p => untouched hg (fst p)) a ->
  iterates (w2w_process hg uz ug gz true) (fun acc w => acc ++ in_output gz (decoded_copy w)) a.
Proof.
  intros Hu s st w sep after Hin Hi. rewrite Forall_forall in Hu. specialize (Hu _ Hin). cbn [fst] in Hu.
  eexists. split; [|apply used_all]. unfold w2w_process. cbn [andb]. rewrite rec_type_handed. unfold decoded_copy.
  change (B "response") with V_RESPONSE.
  destruct (is_some_eq (first_header (B "WARC-Type") (w_headers w)) V_RESPONSE) eqn:Et.
  - apply is_some_eq_iff in Et. destruct (content_handed w st after Hi) as (r' & E & H1 & H2 & H3 & H4). rewrite E.
    rewrite (decode_untouched hg uz ug w Et Hu). rewrite (emit_memory gz s _ r' _ _ _ _ H1 H2 H3 H4). reflexivity.
  - rewrite (emit_handed gz s st (handed w) (w_version w) (w_headers w) (w_body w) after eq_refl eq_refl eq_refl eq_refl Hi).
    destruct w; reflexivity.
Qed.
Theorem C46_others_copied : forall gunzip http_gz unzlib ungzip (gz : option gzipper) (files : list input) (l : list archive),
  Forall2 (holds_archive gunzip) files l -> Forall (untouched http_gz) (records l) ->
  warc2warc gunzip http_gz unzlib ungzip gz true files =
  (Ret tt, concat (map (fun w => in_output gz (decoded_copy w)) (records l))).
Proof.
  intros gunzip hg uz ug gz files l H Hu. unfold warc2warc.
  rewrite (over_files_all gunzip _ (fun i a => holds_archive gunzip i a /\ Forall (untouched hg) (map fst a)) (fun _ a => concat (map (fun w => in_output gz (decoded_copy w)) (map fst a)))) with (l := l).
  - cbn [app]. f_equal. refine (concat_pairs _ files l _). apply (Forall2_len _ _ _ H).
  - intros i a out [[Hok Hi] Hua]. destruct (open_holds _ _ _ Hi) as (st & Eo & Hat & Hp & Hk). exists st. split; [exact Eo|]. unfold each_record.
    destruct (for_records_archive (w2w_process hg uz ug gz true) (fun acc w => acc ++ in_output gz (decoded_copy w)) a out st 0) as [st' E]; try assumption.
    + apply w2w_decode_iterates. rewrite Forall_map in Hua. exact Hua.
    + rewrite E, fold_app. reflexivity.
  - clear - H Hu. induction H as [|i a files l Hi _ IH]; constructor.
    + split; [exact Hi|]. unfold records in Hu. cbn [map concat] in Hu. apply Forall_app in Hu. apply Hu.
    + apply IH. unfold records in Hu. cbn [map concat] in Hu. apply Forall_app in Hu. apply Hu.
Qed.

(** a whole message cannot be stored back: the tool stops there *)
Lemma response_kind_kept hg m t m' r : Http.feed hg m t = Ret (m', r) -> HttpRun.cls (Http.m_head m) <> None -> HttpRun.cls (Http.m_head m') <> None.
Proof.
  rewrite HttpRun.feed_resp. destruct (Http.base_feed hg m t) as [[m1 t1]| |] eqn:E; try discriminate. cbn [bind]. unfold HttpRun.resp. cbn [fst snd].
  apply HttpRun.base_feed_cls in E. destruct (HttpRun.continue_dec m1) as [C|C]; intros H Hm.
  - apply HttpRun.base_feed_cls in H. rewrite H. unfold HttpRun.after_continue. destruct C as [_ C]. unfold HttpRun.status in C.
    destruct (Http.h_kind (Http.m_head m1)); [discriminate|]. unfold HttpRun.cls. cbn. discriminate.
  - injection H as <- <-. rewrite E. exact Hm.
Qed.
Lemma close_head m : Http.m_head (Http.close m) = Http.m_head m.
Proof. unfold Http.close. destruct (Http.m_reader m), (Http.m_mode m); try reflexivity; destruct (rev (Http.m_chunks m)) as [|[o n] t]; reflexivity. Qed.
Lemma decode_whole hg uz ug ct body : ct = Some (B "application/http;msgtype=response") -> whole_response hg body ->
  decode_step hg uz ug ct body = Raise EAttributeError.
Proof.
  intros -> (m & E & Hc). unfold decode_step, http_message.
  change (is_some_eq (Some (B "application/http;msgtype=response")) HTTP_REQUEST_TYPE) with false.
  change (is_some_eq (Some (B "application/http;msgtype=response")) HTTP_RESPONSE_TYPE) with true. cbn iota.
  rewrite E. cbn [bind]. rewrite Hc.
  pose proof (response_kind_kept _ _ _ _ _ E ltac:(unfold HttpRun.cls; cbn; discriminate)) as Hk.
  assert (T : HttpTidy.tidy m).
  { eapply HttpTidy.feed_tidy; [eapply HttpHist.fresh_inv, (HttpBody.parser_fresh (Some []) [])|apply (HttpTidy.fresh_tidy (Some []) [])|exact E]. }
  assert (Hm : Http.m_mode m <> Http.Start).
  { intro X. revert Hc. unfold Http.complete, Http.close. rewrite X. destruct (Http.m_reader m), (rev (Http.m_chunks m)) as [|[o n] t]; discriminate. }
  destruct T as (_ & _ & _ & Hs & _). specialize (Hs Hm). unfold Http.decoded_message. rewrite close_head.
  unfold HttpRun.cls in Hk. unfold Http.decoded_start. destruct (Http.h_kind (Http.m_head m)) as [| rm v c [p|]]; try contradiction.
  cbn [bind]. cbv zeta. destruct (Http.h_encoding (Http.m_head m)) as [[|c0 e]|]; try reflexivity. destruct (Http.get_body (Http.close m)) as [|c1 bd]; [reflexivity|]. destruct (uz (c1 :: bd)); [reflexivity|]. destruct (ug (c1 :: bd)); reflexivity.
Qed.
Theorem C46_whole_response_stops_the_tool : forall gunzip http_gz unzlib ungzip (gz : option gzipper)
    (files others : list input) (l : list archive) (i : input) (a b : archive) (w : wrec) (sep : bytes),
  Forall2 (holds_archive gunzip) files l -> Forall (untouched http_gz) (records l ++ map fst a) ->
  holds_archive gunzip i (a ++ (w, sep) :: b) ->
  is_response w -> ctype w = Some (B "application/http;msgtype=response") -> whole_response http_gz (w_body w) ->
  warc2warc gunzip http_gz unzlib ungzip gz true (files ++ i :: others) =
  (Raise EAttributeError, concat (map (fun w => in_output gz (decoded_copy w)) (records l ++ map fst a))).
Proof.
  intros gunzip hg uz ug gz files others l i a b w sep Hf Hu Hi Hr Hct Hb. apply Forall_app in Hu as [Hu Hua].
  pose proof (C46_others_copied gunzip hg uz ug gz files l Hf Hu) as E. unfold warc2warc in *.
  rewrite (over_files_app gunzip _ _ _ _ _ E). cbn [over_files]. destruct Hi as [Hok Hi]. destruct (open_holds _ _ _ Hi) as (st & Eo & Hat & Hp & Hk). rewrite Eo.
  apply Forall_app in Hok as [Hoka Hokb]. inversion Hokb as [|? ? [Hw _] _]; subst. cbn [fst] in Hw.
  unfold each_record.
  destruct (for_records_raises (w2w_process hg uz ug gz true) (fun acc w => acc ++ in_output gz (decoded_copy w)) a w sep b EAttributeError (fun s => s)
     (concat (map (fun w => in_output gz (decoded_copy w)) (records l))) st 0) as [st' E2]; try assumption.
  - apply w2w_decode_iterates. rewrite Forall_map in Hua. exact Hua.
  - intros s st0 after Hin. unfold w2w_process. cbn [andb]. rewrite rec_type_handed, Hr. change (is_some_eq (Some (B "response")) V_RESPONSE) with true. cbn iota.
    destruct (content_handed w st0 after Hin) as (r' & E3 & _). rewrite E3. rewrite (decode_whole hg uz ug _ _ Hct Hb). eauto.
  - rewrite E2, fold_app, map_app, concat_app. reflexivity.
Qed.
