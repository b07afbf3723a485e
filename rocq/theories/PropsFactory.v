(** C53: make_response, make_request, make_metadata, make_conversion. *)
From Verif Require Export PropsRead Checks.
From Coq Require Import String List Lia.
Open Scope list_scope.

(** ** Specification *)
(** the optional header: left out when the argument is None or empty *)
Definition given (name : string) (v : option bytes) : list header :=
  match v with Some (c :: t) => [(B name, c :: t)] | _ => [] end.
Definition one_line (v : option bytes) : Prop := match v with Some x => value_ok x | None => True end.
(** the record has the headers [hs] and the content, and after being written and read
    back it is one record with these headers - and the content's own - and the same bytes *)
Definition made (r : record) (hs : list header) (ct : option bytes) (body : bytes) : Prop :=
  r_headers r = hs /\
  forall st0, exists st0' text, write_to None CRLF r st0 = (Ret tt, r, st0', text) /\
  forall st, opened_on text st -> exists st',
    for_read_records None true look [] st =
    (Ret tt, [Seen (Some 0) (B "WARC/1.0") (hs ++ given "Content-Type" ct ++ [(B "Content-Length", dec_nat (List.length body))]) []
                   (match ct with Some (c :: t) => Some (c :: t) | _ => None end) body;
              SeenEnd (Some (List.length text)) []], st').

Lemma filter_true {A} (f : A -> bool) l : forallb f l = true -> filter f l = l.
Proof. induction l as [|x l IH]; [reflexivity|]. cbn [forallb filter]. intro H. apply andb_true_iff in H as [H1 H2]. rewrite H1, IH by exact H2. reflexivity. Qed.
Lemma made_from hs ct body : Forall header_ok hs ->
  forallb (fun h => negb (same_nameb (fst h) (B "Content-Type")) && negb (same_nameb (fst h) (B "Content-Length"))) hs = true ->
  one_line ct -> made (tuple_record hs (ct, Some body)) hs ct body.
Proof.
  intros Ho Hn Hc. split; [reflexivity|]. intro st0.
  assert (Hclean : Forall (fun h => supplied_by_content h = false -> header_clean h) hs).
  { apply Forall_forall. intros h Hi _. rewrite forallb_forall in Hn. apply Hn, andb_true_iff in Hi as [H1 H2].
    apply negb_true_iff in H1, H2. split; intro E; [apply bytes_eqb_neq in H1|apply bytes_eqb_neq in H2]; contradiction. }
  assert (Hv : In (B "WARC/1.0") versions) by (left; reflexivity).
  destruct (C01_record_survives_write_then_read (B "WARC/1.0") hs ct body st0 Hv Ho Hclean Hc) as (r' & st0' & text & E & H).
  pose proof (write_tuple None (B "WARC/1.0") hs ct body st0) as E'. unfold tuple_rec in E'. rewrite E in E'. injection E' as -> -> ->.
  exists st0. eexists. split; [exact E|]. intros st Hs. destruct (H st Hs) as (st' & Er). exists st'. rewrite Er.
  assert (Ef : tuple_headers hs ct body = hs ++ given "Content-Type" ct ++ [(B "Content-Length", dec_nat (List.length body))]).
  { unfold tuple_headers. f_equal. apply filter_true. rewrite forallb_forall in *. intros h Hi. apply Hn in Hi.
    apply andb_true_iff in Hi as [H1 H2]. apply negb_true_iff in H1, H2. apply bytes_eqb_neq in H1, H2. apply negb_true_iff.
    destruct (supplied_by_content h) eqn:Es; [exfalso|reflexivity]. unfold supplied_by_content in Es. apply orb_true_iff in Es as [Es|Es]; apply bytes_eqb_eq in Es; rewrite Es in *; [apply H1|apply H2]; reflexivity. }
  assert (Ec : first_header (B "Content-Type") (tuple_headers hs ct body) = match ct with Some (c :: t) => Some (c :: t) | _ => None end).
  { apply C01_content_type_survives. apply Forall_forall. intros h Hi _. rewrite forallb_forall in Hn. apply Hn, andb_true_iff in Hi as [H1 _].
    apply negb_true_iff in H1. apply bytes_eqb_neq in H1. exact H1. }
  rewrite Ec, Ef. reflexivity.
Qed.
Lemma opt_given name v : one_line v -> forall hs, Forall header_ok hs -> name_ok (B name) -> Forall header_ok (given name v ++ hs).
Proof. intros H hs Hh Hn. destruct v as [[|c t]|]; try exact Hh. constructor; [split; assumption|exact Hh]. Qed.
Lemma type_header_ok v : value_okb v = true -> header_ok (B "WARC-Type", v).
Proof. intro H. split; [apply literal_name_ok; reflexivity|]. apply value_okb_sound. exact H. Qed.
Ltac lit := apply literal_name_ok; reflexivity.

(** ** C53 *)
Theorem C53_make_response : forall id date url ct body request_id,
  value_ok id -> value_ok date -> value_ok url -> one_line ct -> one_line request_id ->
  made (make_response id date url (ct, Some body) request_id)
    ([(B "WARC-Type", B "response"); (B "WARC-Record-ID", id); (B "WARC-Date", date); (B "WARC-Target-URI", url)]
     ++ given "WARC-Concurrent-To" request_id) ct body.
Proof.
  intros id date url ct body link H1 H2 H3 H4 H5. 
  assert (E : make_response id date url (ct, Some body) link =
    tuple_record ([(B "WARC-Type", B "response"); (B "WARC-Record-ID", id); (B "WARC-Date", date); (B "WARC-Target-URI", url)] ++ given "WARC-Concurrent-To" link) (ct, Some body)).
  { destruct link as [[|c t]|]; reflexivity. }
  rewrite E. apply made_from; [|destruct link as [[|c t]|]; reflexivity|exact H4]. cbn [app].
  constructor; [apply type_header_ok; reflexivity|]. do 3 (constructor; [split; [lit|assumption]|]).
  rewrite <- (app_nil_r (given _ link)). apply opt_given; [exact H5|constructor|lit].
Qed.
Theorem C53_make_request : forall id date url ct body response_id,
  value_ok id -> value_ok date -> value_ok url -> one_line ct -> one_line response_id ->
  made (make_request id date url (ct, Some body) response_id)
    ([(B "WARC-Type", B "request"); (B "WARC-Record-ID", id); (B "WARC-Date", date); (B "WARC-Target-URI", url)]
     ++ given "WARC-Concurrent-To" response_id) ct body.
Proof.
  intros id date url ct body link H1 H2 H3 H4 H5. 
  assert (E : make_request id date url (ct, Some body) link =
    tuple_record ([(B "WARC-Type", B "request"); (B "WARC-Record-ID", id); (B "WARC-Date", date); (B "WARC-Target-URI", url)] ++ given "WARC-Concurrent-To" link) (ct, Some body)).
  { destruct link as [[|c t]|]; reflexivity. }
  rewrite E. apply made_from; [|destruct link as [[|c t]|]; reflexivity|exact H4]. cbn [app].
  constructor; [apply type_header_ok; reflexivity|]. do 3 (constructor; [split; [lit|assumption]|]).
  rewrite <- (app_nil_r (given _ link)). apply opt_given; [exact H5|constructor|lit].
Qed.
Theorem C53_make_metadata : forall id date ct body concurrent_to url,
  value_ok id -> value_ok date -> one_line url -> one_line ct -> one_line concurrent_to ->
  made (make_metadata id date (ct, Some body) concurrent_to url)
    ([(B "WARC-Type", B "metadata"); (B "WARC-Record-ID", id); (B "WARC-Date", date)]
     ++ given "WARC-Concurrent-To" concurrent_to ++ given "WARC-Target-URI" url) ct body.
Proof.
  intros id date ct body link url H1 H2 H3 H4 H5. 
  assert (E : make_metadata id date (ct, Some body) link url =
    tuple_record ([(B "WARC-Type", B "metadata"); (B "WARC-Record-ID", id); (B "WARC-Date", date)] ++ given "WARC-Concurrent-To" link ++ given "WARC-Target-URI" url) (ct, Some body)).
  { destruct link as [[|c t]|]; destruct url as [[|c' t']|]; reflexivity. }
  rewrite E. apply made_from; [|destruct link as [[|c t]|]; destruct url as [[|c' t']|]; reflexivity|exact H4]. cbn [app].
  constructor; [apply type_header_ok; reflexivity|]. do 2 (constructor; [split; [lit|assumption]|]).
  apply opt_given; [exact H5| |lit]. rewrite <- (app_nil_r (given _ url)). apply opt_given; [exact H3|constructor|lit].
Qed.
Theorem C53_make_conversion : forall id date ct body refers_to url,
  value_ok id -> value_ok date -> one_line url -> one_line ct -> one_line refers_to ->
  made (make_conversion id date (ct, Some body) refers_to url)
    ([(B "WARC-Type", B "conversion"); (B "WARC-Record-ID", id); (B "WARC-Date", date)]
     ++ given "WARC-Refers-To" refers_to ++ given "WARC-Target-URI" url) ct body.
Proof.
  intros id date ct body link url H1 H2 H3 H4 H5. 
  assert (E : make_conversion id date (ct, Some body) link url =
    tuple_record ([(B "WARC-Type", B "conversion"); (B "WARC-Record-ID", id); (B "WARC-Date", date)] ++ given "WARC-Refers-To" link ++ given "WARC-Target-URI" url) (ct, Some body)).
  { destruct link as [[|c t]|]; destruct url as [[|c' t']|]; reflexivity. }
  rewrite E. apply made_from; [|destruct link as [[|c t]|]; destruct url as [[|c' t']|]; reflexivity|exact H4]. cbn [app].
  constructor; [apply type_header_ok; reflexivity|]. do 2 (constructor; [split; [lit|assumption]|]).
  apply opt_given; [exact H5| |lit]. rewrite <- (app_nil_r (given _ url)). apply opt_given; [exact H3|constructor|lit].
Qed.
(** the accessors of the new record *)
Theorem C53_accessors : forall id date url content link,
  let checks (r : record) (type : string) (u : option bytes) :=
    rec_type r = Some (B type) /\ rec_id r = Some id /\ rec_date r = Some date /\ rec_url r = u in
  let present (v : option bytes) := match v with Some (c :: t) => Some (c :: t) | _ => None end in
  (forall u, checks (make_response id date u content link) "response"%string (Some u)) /\
  (forall u, checks (make_request id date u content link) "request"%string (Some u)) /\
  checks (make_metadata id date content link url) "metadata"%string (present url) /\
  checks (make_conversion id date content link url) "conversion"%string (present url).
Proof.
  intros id date url content link. cbn zeta.
  split; [|split; [|split]]; intros; repeat split; destruct link as [[|c t]|]; try reflexivity; destruct url as [[|c' t']|]; reflexivity.
Qed.
Example C53_hypotheses_met : value_ok (B "<urn:uuid:1>") /\ value_ok (B "2020-01-01T00:00:00Z") /\ value_ok (B "http://h/") /\
  one_line (Some (B "text/plain")) /\ one_line None.
Proof. repeat (split; [apply value_okb_sound; reflexivity|]). exact I. Qed.
