(** Non-trivial cases that meet the hypotheses of C45 - C49. *)
From Verif Require Export PropsIndex.
From Coq Require Import String List Lia ZArith.
Open Scope list_scope.

Definition t_none (_ : bytes) : outcome bytes := Raise EValueError.
Definition z_none (_ : bytes) : option bytes := None.
Definition plain_id (b : bytes) : bytes := b.
Definition t_lines (l : list String.string) : bytes := concat (map (fun s => B s ++ CRLF) l).
Definition t_rec (typ ct : String.string) (body : bytes) : wrec :=
  tuple_wrec (B "WARC/1.0") [(B "WARC-Type", B typ); (B "WARC-Target-URI", B "http://a/"); (B "WARC-Record-ID", B "<urn:1>")] (Some (B ct)) body.
Definition t_info : wrec := t_rec "warcinfo" "application/warc-fields" (B "k: v" ++ CRLF).
Definition t_bare : wrec := tuple_wrec (B "WARC/1.0") [(B "WARC-Type", B "metadata")] None (B "WARC/1.0").
Definition t_whole : wrec := t_rec "response" "application/http;msgtype=response"
  (t_lines ["HTTP/1.1 200 OK"; "Content-Type: text/html; charset=x"; "Content-Length: 5"; ""]%string ++ B "hello").
Definition t_cut : wrec := t_rec "response" "application/http;msgtype=response"
  (t_lines ["HTTP/1.1 200 OK"; "Content-Length: 5"; ""]%string ++ B "hel").
Definition t_archive (l : list wrec) : archive := map (fun w => (w, terminator)) l.
Definition t_file (l : list wrec) : input := mkin (B "x.warc") (archive_text (t_archive l)).

Lemma name_plain s : endswith (B ".gz") s = false -> forall t, s <> t ++ B ".gz".
Proof. intros H t E. assert (endswith (B ".gz") s = true) by (apply endswith_iff; eauto). congruence. Qed.
Lemma t_holds l : archive_okb (t_archive l) = true -> holds_archive plain_id (t_file l) (t_archive l).
Proof.
  intro H. apply archive_okb_sound in H. split; [exact H|]. left. split; [apply name_plain; reflexivity|]. split; [|reflexivity].
  intro t. apply not_magic. exact H.
Qed.
Lemma t_two_files : Forall2 (holds_archive plain_id) [t_file [t_info; t_cut]; t_file [t_bare]] [t_archive [t_info; t_cut]; t_archive [t_bare]].
Proof. constructor; [apply t_holds; vm_compute; reflexivity|]. constructor; [apply t_holds; vm_compute; reflexivity|constructor]. Qed.

Example C45_hypotheses_met :
  warc2warc plain_id t_none z_none z_none None false [t_file [t_info; t_cut]; t_file [t_bare]] =
    (Ret tt, in_data (t_file [t_info; t_cut; t_bare])) /\ 200 < List.length (in_data (t_file [t_info; t_cut; t_bare])).
Proof.
  split; [|vm_compute; lia]. rewrite (C45_copies_every_record _ _ _ _ None _ _ t_two_files). vm_compute. reflexivity.
Qed.
Example C45_identity_hypotheses_met : Forall wrec_ok [t_info; t_cut; t_bare] /\ plain_file (t_file [t_info; t_cut; t_bare]) (concat (map canonical [t_info; t_cut; t_bare])).
Proof.
  split; [apply (forallb_sound wrec_okb); [exact wrec_okb_sound|vm_compute; reflexivity]|].
  split; [apply name_plain; reflexivity|]. split; [|vm_compute; reflexivity].
  intros t E. revert E. vm_compute. discriminate.
Qed.
(** a layout with a junk line, bare LF line ends, a folded header, odd spacing *)
Definition t_loose : grec :=
  mkg [B "# comment" ++ [LF]; [CR; LF]] (B "garbage") (B "  ") (B "warc/") (B "0.17") CRLF entry_sample false (B "body").
Lemma t_loose_ok : g_ok t_loose.
Proof.
  split; [|split; [|split; [|split; [|split; [|split; [|split]]]]]].
  - repeat (constructor; [match goal with |- is_line ?l => apply (is_lineb l (removelast l)); reflexivity end|]). constructor.
  - repeat constructor.
  - vm_compute. lia.
  - match goal with |- is_line ?l => apply (is_lineb l (removelast l)); reflexivity end.
  - exact C11_case.
  - right. left. reflexivity.
  - apply C13_case.
  - apply C13_case.
Qed.
Definition t_loose_file : input := mkin (B "x.warc") (garchive_text [(t_loose, [LF]); (t_loose, [])]).
Lemma t_loose_holds : garchive_ok [(t_loose, [LF]); (t_loose, [])] /\ plain_file t_loose_file (garchive_text [(t_loose, [LF]); (t_loose, [])]).
Proof.
  split; [|split; [apply name_plain; reflexivity|split; [intros t E; revert E; vm_compute; discriminate|reflexivity]]].
  constructor; [|constructor; [|constructor]]; (split; [exact t_loose_ok|apply sep_okb_sound; reflexivity]).
Qed.
Example C45_layout_hypotheses_met :
  warc2warc plain_id t_none z_none z_none None false [t_loose_file] =
  (Ret tt, let one := B "  warc/0.17" ++ CRLF ++ t_lines ["Subject: one two three"; "Content-Length: 4"; ""]%string ++ B "body" ++ CRLF ++ CRLF in one ++ one).
Proof. destruct t_loose_holds as [H1 H2]. rewrite (C45_any_layout_made_canonical plain_id t_none z_none z_none None t_loose_file _ H1 H2). vm_compute. reflexivity. Qed.

(** with -D: the first file is copied, the second ends the run at its second record *)
Lemma t_untouched : Forall (untouched t_none) [t_info; t_cut; t_bare].
Proof.
  constructor; [left; unfold is_response; vm_compute; discriminate|]. constructor; [|constructor; [left; unfold is_response; vm_compute; discriminate|constructor]].
  right. right. split; [vm_compute; reflexivity|]. eexists _, _. split; [vm_compute; reflexivity|]. right. vm_compute. reflexivity.
Qed.
Example C46_hypotheses_met :
  warc2warc plain_id t_none z_none z_none None true [t_file [t_info; t_cut]; t_file [t_bare; t_whole; t_info]] =
  (Raise EAttributeError, in_data (t_file [t_info; t_cut; t_bare])).
Proof.
  assert (H2 : Forall2 (holds_archive plain_id) [t_file [t_info; t_cut]] [t_archive [t_info; t_cut]]) by (constructor; [apply t_holds; vm_compute; reflexivity|constructor]).
  change [t_file [t_info; t_cut]; t_file [t_bare; t_whole; t_info]] with ([t_file [t_info; t_cut]] ++ [t_file [t_bare; t_whole; t_info]]).
  rewrite (C46_whole_response_stops_the_tool plain_id t_none z_none z_none None [t_file [t_info; t_cut]] [] [t_archive [t_info; t_cut]] (t_file [t_bare; t_whole; t_info]) (t_archive [t_bare]) (t_archive [t_info]) t_whole terminator H2).
  - vm_compute. reflexivity.
  - exact t_untouched.
  - apply t_holds. vm_compute. reflexivity.
  - reflexivity.
  - reflexivity.
  - eexists. split; [vm_compute; reflexivity|vm_compute; reflexivity].
Qed.
Example C46_others_hypotheses_met :
  warc2warc plain_id t_none z_none z_none None true [t_file [t_info; t_cut]; t_file [t_bare]] = (Ret tt, in_data (t_file [t_info; t_cut; t_bare])).
Proof.
  rewrite (C46_others_copied plain_id t_none z_none z_none None _ _ t_two_files); [vm_compute; reflexivity|]. exact t_untouched.
Qed.

(** a pattern: the byte 'v' *)
Definition t_search (b : bytes) : bool := existsb (N.eqb 118) b.
Example C47_hypotheses_met :
  warcfilter plain_id t_none t_search FAny false [t_file [t_info; t_cut]; t_file [t_bare]] = (Ret tt, canonical t_info) /\
  warcfilter plain_id t_none t_search FAny true [t_file [t_info; t_cut]; t_file [t_bare]] = (Ret tt, canonical t_cut ++ canonical t_bare) /\
  warcfilter plain_id t_none (existsb (N.eqb 119)) FContentType true [t_file [t_info; t_cut]; t_file [t_bare]] = (Ret tt, canonical t_cut ++ canonical t_bare).
Proof.
  assert (N1 : FAny <> FHttpType) by discriminate. assert (N2 : FContentType <> FHttpType) by discriminate.
  rewrite !(C47_selects_exactly_the_matching_records plain_id t_none _ _ _ _ _ N1 t_two_files), (C47_selects_exactly_the_matching_records plain_id t_none _ _ _ _ _ N2 t_two_files).
  split; [|split]; vm_compute; reflexivity.
Qed.
Definition t_mime (w : wrec) : option bytes := Some (B "text/html").
Lemma t_http_clean : Forall (http_clean t_none t_mime) [t_info; t_whole; t_bare].
Proof.
  constructor; [intro H; revert H; unfold is_response; vm_compute; discriminate|]. constructor; [|constructor; [intro H; revert H; unfold is_response; vm_compute; discriminate|constructor]].
  intros _. split; [vm_compute; discriminate|]. intros _. eexists. split; [vm_compute; reflexivity|]. split; vm_compute; reflexivity.
Qed.
Lemma t_http_file : Forall2 (holds_archive plain_id) [t_file [t_info; t_whole; t_bare]] [t_archive [t_info; t_whole; t_bare]].
Proof. constructor; [apply t_holds; vm_compute; reflexivity|constructor]. Qed.
Example C47_http_hypotheses_met :
  warcfilter plain_id t_none (fun b => bytes_eqb b (B "text/html")) FHttpType false [t_file [t_info; t_whole; t_bare]] = (Ret tt, canonical t_whole) /\
  warcfilter plain_id t_none (fun b => bytes_eqb b (B "text/html")) FHttpType false [t_file [t_info; t_whole; t_bare]; t_file [t_cut]] = (Raise ENameError, canonical t_whole).
Proof.
  rewrite (C47_http_media_type plain_id t_none _ false _ _ t_mime t_http_file t_http_clean). split; [vm_compute; reflexivity|].
  change [t_file [t_info; t_whole; t_bare]; t_file [t_cut]] with ([t_file [t_info; t_whole; t_bare]] ++ [t_file [t_cut]]).
  rewrite (C47_http_failures plain_id t_none _ false [t_file [t_info; t_whole; t_bare]] [] _ (t_file [t_cut]) [] [] t_cut terminator t_mime t_http_file).
  - vm_compute. reflexivity.
  - exact t_http_clean.
  - apply t_holds. vm_compute. reflexivity.
  - reflexivity.
  - right. split; [vm_compute; reflexivity|]. eexists _, _. split; [vm_compute; reflexivity|]. right. vm_compute. reflexivity.
Qed.

Example C48_hypotheses_met :
  warcvalid plain_id [t_file [t_info; t_cut]; t_file [t_bare]] = Ret 0%Z /\
  warcvalid plain_id [t_file [t_info; t_cut]; mkin (B "y.warc") (cut_text (t_archive [t_bare]) t_info 3)] = Ret (-1)%Z /\
  warcvalid plain_id [t_loose_file] = Ret (-1)%Z.
Proof.
  split; [apply (C48_intact_archives_accepted plain_id _ _ t_two_files)|]. split.
  - apply (C48_truncated_payload_rejected plain_id [t_file [t_info; t_cut]] [] _ (t_archive [t_bare]) t_info 3).
    + constructor; [|constructor]. eapply holds_clean. apply t_holds. vm_compute. reflexivity.
    + apply archive_okb_sound. vm_compute. reflexivity.
    + apply wrec_okb_sound. vm_compute. reflexivity.
    + vm_compute. lia.
    + left. split; [apply name_plain; reflexivity|]. split; [intros t E; revert E; vm_compute; discriminate|reflexivity].
  - destruct t_loose_holds as [H1 H2]. rewrite (C48_layout_errors plain_id _ _ H1 H2). vm_compute. reflexivity.
Qed.
(** the same record cut after its second header line *)
Example C48_cut_hypotheses_met : exists i hs1 h hs2, wrec_ok t_info /\ Forall single_line_header (w_headers t_info) /\ Forall length_natural (w_headers t_info) /\
  w_headers t_info = hs1 ++ h :: hs2 /\ Forall (fun x => ~ same_name (fst x) (B "Content-Length")) hs1 /\
  plain_file i (firstn (header_position t_info hs1) (wrec_text t_info ++ terminator)) /\ List.length hs1 = 2 /\ warcvalid plain_id [i] = Ret 0%Z.
Proof.
  exists (mkin (B "z") (firstn (header_position t_info (firstn 2 (w_headers t_info))) (wrec_text t_info ++ terminator))), (firstn 2 (w_headers t_info)). do 2 eexists.
  assert (W : wrec_ok t_info) by (apply wrec_okb_sound; vm_compute; reflexivity).
  assert (S1 : Forall single_line_header (w_headers t_info)) by (constructor; [split; apply (no_byteb_sound 13); reflexivity|]; constructor; [split; apply (no_byteb_sound 13); reflexivity|]; constructor; [split; apply (no_byteb_sound 13); reflexivity|]; constructor; [split; apply (no_byteb_sound 13); reflexivity|]; constructor; [split; apply (no_byteb_sound 13); reflexivity|]; constructor).
  assert (S2 : Forall length_natural (w_headers t_info)) by (repeat constructor; unfold length_natural; cbn [fst snd]; intro E; try discriminate E; exists 6; vm_compute; reflexivity).
  assert (S3 : Forall (fun x => ~ same_name (fst x) (B "Content-Length")) (firstn 2 (w_headers t_info))) by (repeat constructor; vm_compute; discriminate).
  assert (P : plain_file (mkin (B "z") (firstn (header_position t_info (firstn 2 (w_headers t_info))) (wrec_text t_info ++ terminator))) (firstn (header_position t_info (firstn 2 (w_headers t_info))) (wrec_text t_info ++ terminator))).
  { split; [apply name_plain; reflexivity|]. split; [intros t E; revert E; vm_compute; discriminate|reflexivity]. }
  split; [exact W|]. split; [exact S1|]. split; [exact S2|]. split; [vm_compute; reflexivity|]. split; [exact S3|]. split; [exact P|]. split; [reflexivity|].
  eapply (C48_cut_between_headers_accepted plain_id _ t_info (firstn 2 (w_headers t_info))); [exact W|exact S1|exact S2|vm_compute; reflexivity|exact S3|exact P].
Qed.

Example C49_hypotheses_met :
  warcindex plain_id [t_file [t_info; t_bare]] = (Ret tt, index_header ++
    B "x.warc 0 warcinfo http://a/ <urn:1> application/warc-fields 6" ++ [LF] ++ B "x.warc 154 metadata - - - 8" ++ [LF]) /\
  warcextract plain_id (t_file [t_info; t_bare]) 154 = (Ret tt, B "WARC/1.0").
Proof.
  assert (H : holds_archive plain_id (t_file [t_info; t_bare]) (t_archive [t_info; t_bare])) by (apply t_holds; vm_compute; reflexivity).
  assert (P : plain_file (t_file [t_info; t_bare]) (archive_text (t_archive [t_info; t_bare]))).
  { split; [apply name_plain; reflexivity|]. split; [intro t; apply not_magic; apply H|reflexivity]. }
  split.
  - rewrite (C49_index_lists_every_record plain_id _ [(t_archive [t_info; t_bare], dec_nat)]); [vm_compute; reflexivity|]. constructor; [|constructor].
    split; [apply H|]. split; [|left; split; [exact P|reflexivity]].
    constructor; [|constructor; [|constructor]]; apply C49_written_records_are_honest; repeat constructor; cbn [fst]; intros _; vm_compute; discriminate.
  - change 154%Z with (Z.of_nat (start_of (t_archive [t_info; t_bare]) 1)) at 1. apply (C49_extract_at_an_indexed_offset plain_id _ _ 1 t_bare terminator); [apply H|exact P|reflexivity].
Qed.
