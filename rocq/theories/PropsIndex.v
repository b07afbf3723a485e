(** C49: warcindex and warcextract. *)
From Verif Require Export PropsValid.
From Coq Require Import String List Lia ZArith.
Open Scope list_scope.

(** ** Specification *)
Definition field_or_dash (o : option bytes) : bytes :=
  match o with Some (c :: t) => c :: t | _ => B "-" end.
(** one line of the index *)
Definition index_line (name : bytes) (offset : bytes) (w : wrec) : bytes :=
  name ++ B " " ++ offset ++ B " " ++ field_or_dash (header_of "WARC-Type" w) ++ B " " ++
  field_or_dash (header_of "WARC-Target-URI" w) ++ B " " ++ field_or_dash (header_of "WARC-Record-ID" w) ++ B " " ++
  field_or_dash (header_of "Content-Type" w) ++ B " " ++ dec_nat (List.length (w_body w)) ++ [LF].
Definition index_header : bytes :=
  B "#WARC filename offset warc-type warc-subject-uri warc-record-id content-type content-length" ++ [LF].
(** the record at index [i] of an archive starts at byte [start_of a i] *)
Definition index_of_file (shown : nat -> bytes) (name : bytes) (a : archive) : bytes :=
  concat (map (fun i => match nth_error a i with
                        | Some (w, _) => index_line name (shown (start_of a i)) w
                        | None => []
                        end) (seq 0 (List.length a))).
(** the first Content-Length header, if there is one, is the length of the payload *)
Definition length_honest (w : wrec) : Prop :=
  forall v, header_of "Content-Length" w = Some v -> py_int 10 v = Some (Z.of_nat (List.length (w_body w))).

Lemma dash_eq o : or_dash o = field_or_dash o.
Proof. destruct o as [[|c t]|]; reflexivity. Qed.
Lemma rec_id_handed w : rec_id (handed w) = header_of "WARC-Record-ID" w.
Proof. unfold rec_id, get_header. apply lookup_first. Qed.
Lemma cl_handed w : get_header (handed w) (cl_name (handed w)) = header_of "Content-Length" w.
Proof. unfold get_header. apply lookup_first. Qed.
Lemma dec_Z_nat n : dec_Z (Z.of_nat n) = dec_nat n.
Proof. unfold dec_Z, dec_nat. destruct (Z.of_nat n) eqn:E; try lia; f_equal; lia. Qed.
Lemma index_visits name a : Forall (fun p => length_honest (fst p)) a ->
  visits (index_body name) (fun out off w => out ++ index_line name (show_offset off) w) (fun out _ => out) a.
Proof.
  intro Hh. split; [|intros s st off; eexists; reflexivity]. intros s st w sep after off Hin Hi. rewrite Forall_forall in Hh. specialize (Hh _ Hin). cbn [fst] in Hh.
  assert (L : forall ct, join (B " ") [name; show_offset off; or_dash (rec_type (handed w)); or_dash (rec_url (handed w)); or_dash (rec_id (handed w)); or_dash ct; dec_Z (Z.of_nat (List.length (w_body w)))] ++ [LF] =
     name ++ B " " ++ show_offset off ++ B " " ++ field_or_dash (header_of "WARC-Type" w) ++ B " " ++ field_or_dash (header_of "WARC-Target-URI" w) ++ B " " ++ field_or_dash (header_of "WARC-Record-ID" w) ++ B " " ++ field_or_dash ct ++ B " " ++ dec_nat (List.length (w_body w)) ++ [LF]).
  { intro ct. rewrite !dash_eq, rec_type_handed, rec_url_handed, rec_id_handed, dec_Z_nat. cbn [join]. rewrite <- !app_assoc. reflexivity. }
  cbn [index_body]. unfold rec_content_type. cbn [handed parsed_rec r_content]. change (parsed_rec (w_version w) (w_headers w) []) with (handed w).
  rewrite ct_handed. unfold index_line. change (header_of "Content-Type" w) with (ctype w). destruct (ctype w) as [ct|] eqn:Ec.
  - unfold rec_content_length. cbn [handed parsed_rec r_content]. change (parsed_rec (w_version w) (w_headers w) []) with (handed w). rewrite cl_handed.
    destruct (header_of "Content-Length" w) as [v|] eqn:El.
    + rewrite (Hh v El). rewrite L. eexists. split; [reflexivity|eapply used_refl; exact Hi].
    + destruct (content_handed w st after Hi) as (r' & E & _). rewrite E. cbn [bind snd]. rewrite L. eexists. split; [reflexivity|apply used_all].
  - destruct (content_handed w st after Hi) as (r' & E & H1 & H2 & H3 & H4). rewrite E. cbn [omap fst]. unfold rec_content_length, rec_content. rewrite H4. cbn [bind snd]. rewrite L, Ec.
    eexists. split; [reflexivity|apply used_all].
Qed.
Lemma visit_index show name a : forall start out,
  visit (fun out off w => out ++ index_line name (show_offset off) w) (fun out _ => out) show None start a out =
  out ++ concat (map (fun i => match nth_error a i with Some (w, _) => index_line name (show_offset (show (start + start_of a i))) w | None => [] end) (seq 0 (List.length a))).
Proof.
  induction a as [|[w sep] a IH]; intros start out; cbn [visit next_limit]; [cbn; rewrite app_nil_r; reflexivity|].
  rewrite IH, <- app_assoc. f_equal. cbn [List.length seq map concat nth_error]. change (start_of ((w, sep) :: a) 0) with 0. rewrite Nat.add_0_r. f_equal.
  rewrite <- seq_shift, map_map. f_equal. apply map_ext. intro i. cbn [nth_error]. destruct (nth_error a i) as [[w' s']|]; [|reflexivity]. rewrite start_of_S. do 3 f_equal. lia.
Qed.
(** ** C49 *)
Definition shown_for (gunzip : bytes -> bytes) (i : input) (a : archive) (shown : nat -> bytes) : Prop :=
  plain_file i (archive_text a) /\ shown = dec_nat \/ gz_file gunzip i (archive_text a) /\ shown = (fun _ => B "None").
Theorem C49_index_lists_every_record : forall gunzip (files : list input) (l : list (archive * (nat -> bytes))),
  Forall2 (fun i p => archive_ok (fst p) /\ Forall (fun x => length_honest (fst x)) (fst p) /\ shown_for gunzip i (fst p) (snd p)) files l ->
  warcindex gunzip files =
  (Ret tt, index_header ++ concat (map (fun p => index_of_file (snd (snd p)) (in_name (fst p)) (fst (snd p))) (combine files l))).
Proof.
  intros gunzip files l H. unfold warcindex. change INDEX_HEADER with index_header.
  apply (over_files_all gunzip index_file _ (fun i p => index_of_file (snd p) (in_name i) (fst p))) with (2 := H).
  clear files l H. intros i [a shown] out (Hok & Hh & Hs). cbn [fst snd] in *.
  destruct Hs as [[Hi ->]|[Hi ->]].
  - rewrite (open_plain gunzip i _ Hi). eexists. split; [reflexivity|]. unfold index_file.
    match goal with |- context [for_read_records _ _ _ _ ?s] => set (st := s) end.
    destruct (for_read_records_archive (index_body (in_name i)) _ _ a None true out st 0 (index_visits (in_name i) a Hh) Hok) as [st' E]; [|reflexivity|discriminate|].
    + left. split; [reflexivity|]. exists []. split; [reflexivity|]. split; [split; [intros c []|left; reflexivity]|reflexivity].
    + rewrite E, visit_index. reflexivity.
  - rewrite (open_gz gunzip i _ Hi). eexists. split; [reflexivity|]. unfold index_file.
    match goal with |- context [for_read_records _ _ _ _ ?s] => set (st := s) end.
    destruct (for_read_records_archive (index_body (in_name i)) _ _ a None true out st 0 (index_visits (in_name i) a Hh) Hok) as [st' E]; [|reflexivity|discriminate|].
    + left. split; [reflexivity|]. exists []. split; [reflexivity|]. split; [split; [intros c []|left; reflexivity]|reflexivity].
    + rewrite E, visit_index. reflexivity.
Qed.
(** the offset in the index gives the payload back *)
Theorem C49_extract_at_an_indexed_offset : forall gunzip (i : input) (a : archive) (k : nat) (w : wrec) (sep : bytes),
  archive_ok a -> plain_file i (archive_text a) -> nth_error a k = Some (w, sep) ->
  warcextract gunzip i (Z.of_nat (start_of a k)) = (Ret tt, w_body w).
Proof.
  intros gunzip i a k w sep Hok Hi Hn. unfold warcextract. rewrite (open_plain gunzip i _ Hi). unfold first_seek. cbn [new_stream s_kind]. unfold stream_seek, f_seek.
  assert (Hneg : (Z.of_nat (start_of a k) <? 0)%Z = false) by lia. rewrite Hneg, Nat2Z.id. cbn [set_fh s_fh f_data f_strict s_kind s_eoc s_parser].
  match goal with |- context [for_read_records _ _ _ _ ?s] => set (st1 := s) end.
  assert (Hr : rest st1 = archive_text ((w, sep) :: skipn (S k) a)).
  { change (skipn (start_of a k) (archive_text a) = archive_text ((w, sep) :: skipn (S k) a)). rewrite (archive_at a k w sep Hn), archive_text_cons. reflexivity. }
  assert (Hw : wrec_ok w) by (unfold archive_ok in Hok; rewrite Forall_forall in Hok; apply (Hok (w, sep)); eapply nth_error_In; exact Hn).
  assert (Hat : at_text st1 (start_of a k) (archive_text ((w, sep) :: skipn (S k) a))).
  { left. split; [reflexivity|]. exists []. split; [exact Hr|]. split; [split; [intros c []|auto]|]. cbn. lia. }
  destruct (read_first st1 _ w sep _ false Hat eq_refl ltac:(discriminate) Hw) as (st2 & E & Hin & _).
  unfold for_read_records. assert (Hf : exists n, file_fuel (s_fh st1) = S n).
  { pose proof (rest_fuel st1) as X. rewrite Hr, archive_text_cons, app_length in X. pose proof (wrec_text_nonempty w). destruct (file_fuel (s_fh st1)); [lia|eauto]. }
  destruct Hf as [n ->]. cbn [read_loop]. rewrite E. cbn [dump_body]. destruct (content_handed w st2 _ Hin) as (r' & E2 & _). rewrite E2. reflexivity.
Qed.
(** records written by the library from a (type, bytes) pair satisfy the condition on
    lengths, unless the caller supplied a Content-Length header in other letter case *)
Theorem C49_written_records_are_honest : forall v hs ct body,
  Forall (fun h => supplied_by_content h = false -> ~ same_name (fst h) (B "Content-Length")) hs -> length_honest (tuple_wrec v hs ct body).
Proof.
  intros v hs ct body Hc x Hx. unfold header_of, tuple_wrec in Hx. cbn [w_headers w_body] in *. unfold tuple_headers in Hx. revert Hx.
  induction hs as [|h hs IH]; cbn [filter app].
  - destruct ct as [[|c t]|]; cbn; intro H; injection H as <-; apply py_int_dec_nat.
  - inversion Hc as [|? ? H1 H2]; subst. destruct (supplied_by_content h) eqn:E; cbn [negb]; [apply IH, H2|]. destruct h as [n u]. cbn [app first_header].
    destruct (same_nameb n (B "Content-Length")) eqn:En; [|apply IH, H2]. exfalso. apply (H1 eq_refl). cbn [fst]. apply bytes_eqb_eq. exact En.
Qed.
