(** C61: warcpayload and warcextract at any offset. *)
From Verif Require Export PropsIndex PropsPlace Checks.
From Coq Require Import String List Lia ZArith.
Open Scope list_scope.

(** ** Specification *)
(** the file from byte [n] on, under the same name *)
Definition cut_file (i : input) (n : nat) : input := mkin (in_name i) (skipn n (in_data i)).
(** what warcpayload prints for a record, and how it ends; [client] is what an HTTP client
    makes of a stored HTTP response *)
Definition payload_of (client : bytes -> outcome bytes) (w : wrec) : outcome unit * bytes :=
  if is_some_eq (header_of "WARC-Type" w) (B "response") then
    match header_of "Content-Type" w with
    | None => (Raise EAttributeError, [])
    | Some ct =>
        if startswith (B "application/http") ct then
          match client (w_body w) with
          | Ret p => (Ret tt, p)
          | Raise e => (Raise e, [])
          | Diverge => (Diverge, [])
          end
        else (Ret tt, w_body w)
    end
  else (Ret tt, w_body w).

Lemma payload_open gunzip client i n text : file_holds gunzip (cut_file i n) text ->
  exists st, warcpayload gunzip client i (Z.of_nat n) = fst (for_read_records (Some 1) false (payload_body client) [] st) /\
    s_eoc st = None /\ s_parser st = PWarc /\ s_kind st <> SGzipFile /\ rest st = text.
Proof.
  intro H. unfold warcpayload, f_seek. assert (E : (Z.of_nat n <? 0)%Z = false) by lia. rewrite E, Nat2Z.id. cbn [f_data f_strict].
  set (f := mkfile (in_data i) n true). change (skipn n (in_data i)) with (f_rest f) in *.
  assert (X : exists st, open_stream gunzip AWarc (endswith (B ".gz") (in_name i)) GAuto f = Ret st /\ s_eoc st = None /\ s_parser st = PWarc /\ s_kind st <> SGzipFile /\ rest st = text).
  { unfold open_stream. destruct (C25_gzip_detection f) as [Hs Hg]. destruct (is_gzip_file f) as [g f'] eqn:Ei. cbn [fst snd] in *. subst f'.
    destruct H as [(Hn & Hd & Ht)|(Hd & Ht)]; cbn [cut_file in_name in_data] in *; change (skipn n (in_data i)) with (f_rest f) in *.
    - destruct (endswith (B ".gz") (in_name i)) eqn:En; [apply endswith_iff in En as [t En]; destruct (Hn t En)|].
      destruct g; [destruct Hg as [Hg _]; destruct (Hg eq_refl) as [t Hx]; destruct (Hd t Hx)|].
      eexists. split; [reflexivity|]. repeat split; [discriminate|exact Ht].
    - assert (En : endswith (B ".gz") (in_name i) = true \/ g = true).
      { destruct Hd as [Hd|Hd]; [left; apply endswith_iff, Hd|right; apply Hg, Hd]. }
      destruct (endswith (B ".gz") (in_name i)); [|destruct En as [En|En]; [discriminate|subst g]];
      (eexists; split; [reflexivity|]; repeat split; [discriminate|exact Ht]). }
  destruct X as (st & -> & X). exists st. split; [|exact X]. destruct (for_read_records _ _ _ _ st) as [[o out] st']. reflexivity.
Qed.
Lemma one_record {S} (body : S -> stream -> item -> outcome bool * S * stream) s st it st1 :
  read_record st false = (Ret it, st1) ->
  fst (for_read_records (Some 1) false body s st) =
  match body s st1 it with (Ret _, s', _) => (Ret tt, s') | (Raise e, s', _) => (Raise e, s') | (Diverge, s', _) => (Diverge, s') end.
Proof.
  intro E. unfold for_read_records. assert (exists f, file_fuel (s_fh st) = Datatypes.S f) as [f ->] by (unfold file_fuel; eauto). cbn [read_loop]. rewrite E.
  destruct (body s st1 it) as [[[[|]|e|] s'] st2]; try reflexivity. destruct it as [[o [r|]] es]; cbn [fst snd]; [|reflexivity]. destruct f; reflexivity.
Qed.
(** ** C61 *)
Theorem C61_payload_at_a_record : forall gunzip client (i : input) (n : nat) (w : wrec) (sep : bytes) (a : archive),
  archive_ok ((w, sep) :: a) -> file_holds gunzip (cut_file i n) (archive_text ((w, sep) :: a)) ->
  warcpayload gunzip client i (Z.of_nat n) = payload_of client w.
Proof.
  intros gunzip client i n w sep a Hok Hf. destruct (payload_open gunzip client i n _ Hf) as (st & -> & He & Hp & Hk & Hr).
  assert (Hat : at_text st (pos st) (archive_text ((w, sep) :: a))).
  { left. split; [exact He|]. exists []. split; [exact Hr|]. split; [split; [intros c []|auto]|]. cbn. lia. }
  destruct (read_first st _ w sep a false Hat Hp Hk (proj1 (Forall_inv Hok))) as (st1 & E & Hin & _).
  rewrite (one_record _ _ _ _ _ E). cbn [payload_body]. unfold payload_of.
  rewrite rec_type_handed. change (first_header (B "WARC-Type") (w_headers w)) with (header_of "WARC-Type" w). change V_RESPONSE with (B "response").
  assert (Hcopy : copy_loop (cf_fuel (r_cf (handed w)) st1) (r_cf (handed w)) st1 [] = (Ret tt, CF_stream, moved st1 (List.length (w_body w)) 0, w_body w)).
  { cbn [handed parsed_rec r_cf cf_fuel]. rewrite (copy_stream _ st1 (w_body w) _ [] Hin); [reflexivity|].
    pose proof (rest_fuel st1) as X. destruct Hin as [_ Hr1]. rewrite Hr1, app_length in X. unfold bytes in *. lia. }
  destruct (is_some_eq (header_of "WARC-Type" w) (B "response")).
  - unfold rec_content_type. cbn [handed parsed_rec r_content]. change (parsed_rec (w_version w) (w_headers w) []) with (handed w). rewrite ct_handed.
    change (header_of "Content-Type" w) with (ctype w). destruct (ctype w) as [ct|] eqn:Ec.
    + change APPLICATION_HTTP with (B "application/http"). destruct (startswith (B "application/http") ct).
      * rewrite (read_rest st1 (w_body w) _ Hin). destruct (client (w_body w)); reflexivity.
      * rewrite Hcopy. reflexivity.
    + destruct (content_handed w st1 _ Hin) as (r' & E2 & _). rewrite E2, Ec. reflexivity.
  - rewrite Hcopy. reflexivity.
Qed.
(** in particular at every record of an uncompressed archive, at the offset the index
    gives for it *)
Theorem C61_payload_at_an_indexed_offset : forall gunzip client (i : input) (a : archive) (k : nat) (w : wrec) (sep : bytes),
  archive_ok a -> (forall t, in_name i <> t ++ B ".gz") -> in_data i = archive_text a -> nth_error a k = Some (w, sep) ->
  warcpayload gunzip client i (Z.of_nat (start_of a k)) = payload_of client w.
Proof.
  intros gunzip client i a k w sep Hok Hn Hd Hk. apply (C61_payload_at_a_record gunzip client i (start_of a k) w sep (skipn (S k) a)).
  - rewrite <- (nth_skip a k (w, sep) Hk). unfold archive_ok in *. apply Forall_forall. intros x Hx. rewrite Forall_forall in Hok. apply Hok.
    rewrite <- (firstn_skipn k a). apply in_or_app. right. exact Hx.
  - left. cbn [cut_file]. assert (E : skipn (start_of a k) (in_data i) = archive_text ((w, sep) :: skipn (S k) a)) by (rewrite Hd, archive_skip, (nth_skip a k (w, sep) Hk); reflexivity).
    split; [exact Hn|]. split; [|exact E]. unfold cut_file. cbn [in_data]. rewrite E. intros t X. rewrite archive_text_cons in X.
    assert (Hw : In (w_version w) versions).
    { unfold archive_ok in Hok. rewrite Forall_forall in Hok. apply (Hok (w, sep)). eapply nth_error_In; exact Hk. }
    unfold wrec_text, head_text in X. rewrite <- !app_assoc in X.
    cbn in Hw. destruct Hw as [Hw|[Hw|[Hw|[]]]]; rewrite <- Hw in X; discriminate.
Qed.
(** at an offset from which no line holds a version: nothing is printed; the run ends
    normally if there is nothing but blank lines, and otherwise with NameError instead
    of the error report *)
Lemma wparse_no_version text : Forall (fun l => version_line l = false) (lines_of text) ->
  exists errs k, wparse (lines_of text) = WNone errs k /\ (errs = [] <-> junk_lines (lines_of text) = []).
Proof.
  intro Hv. pose proof (lines_ok text) as Hok. revert Hok Hv. generalize (lines_of text). intros ls Hok Hv.
  assert (G : forall errs, exists e k, vfind ls errs = inl (e, k) /\ (e = [] <-> errs = [] /\ junk_lines ls = [])).
  { induction Hok as [|l t [Hl1 Hl2] Ht IH]; intro errs; cbn [vfind].
    - exists errs, 0. split; [reflexivity|]. cbn. tauto.
    - inversion Hv as [|? ? Hx Hv']; subst. specialize (IH Hv'). apply (version_line_none l Hl1 Hl2) in Hx. rewrite Hx.
      unfold junk_lines in *. cbn [filter]. change (blank_text l) with (blank_line l). destruct (blank_line l); cbn [negb].
      + destruct (IH errs) as (e & k & -> & H). eexists _, _. split; [reflexivity|exact H].
      + destruct (Nat.ltb _ _).
        * eexists _, _. split; [reflexivity|]. split; [intro H|intros [_ H]; discriminate]. destruct (errs ++ [ErrIgnored l]); discriminate.
        * destruct (IH (errs ++ [ErrIgnored l])) as (e & k & -> & H). eexists _, _. split; [reflexivity|]. rewrite H. split; [intros [X _]; destruct errs; discriminate|intros [_ X]; discriminate]. }
  unfold wparse. destruct (G []) as (e & k & -> & H). exists e, k. split; [reflexivity|]. rewrite H. tauto.
Qed.
Lemma read_no_version st : s_eoc st = None -> s_parser st = PWarc -> s_kind st <> SGzipFile ->
  Forall (fun l => version_line l = false) (lines_of (rest st)) ->
  exists off errs st1, read_record st false = (Ret (off, None, errs), st1) /\ (errs = [] <-> junk_lines (lines_of (rest st)) = []).
Proof.
  intros He Hp Hk Hv. destruct (wparse_no_version (rest st) Hv) as (errs & k & W & H). pose proof (read_record_any st false He Hp Hk) as R. cbn zeta in R. rewrite W in R.
  eexists _, _, _. split; [exact R|exact H].
Qed.
Definition empty_list {A} (l : list A) : bool := match l with [] => true | _ => false end.
Theorem C61_payload_without_record : forall gunzip client (i : input) (n : nat) (text : bytes),
  file_holds gunzip (cut_file i n) text -> Forall (fun l => version_line l = false) (lines_of text) ->
  warcpayload gunzip client i (Z.of_nat n) =
  (if empty_list (junk_lines (lines_of text)) then Ret tt else Raise ENameError, []).
Proof.
  intros gunzip client i n text Hf Hv. destruct (payload_open gunzip client i n _ Hf) as (st & -> & He & Hp & Hk & Hr). subst text.
  destruct (read_no_version st He Hp Hk Hv) as (off & errs & st1 & E & H). rewrite (one_record _ _ _ _ _ E). cbn [payload_body].
  destruct errs as [|e es]; [rewrite (proj1 H eq_refl); reflexivity|]. destruct (junk_lines (lines_of (rest st))); [discriminate (proj2 H eq_refl)|reflexivity].
Qed.
(** what warcextract finds at byte [n] of the file: the start of the file decides whether it is compressed, and [n] counts bytes
    of the file as it is stored *)
Definition extract_holds (gunzip : bytes -> bytes) (i : input) (n : nat) (text : bytes) : Prop :=
  (exists data, plain_file i data /\ text = skipn n data) \/ (exists data, gz_file gunzip i data /\ text = gunzip (skipn n (in_data i))).
Lemma extract_open gunzip i n text : extract_holds gunzip i n text ->
  exists st, warcextract gunzip i (Z.of_nat n) = fst (for_read_records (Some 1) false dump_body [] st) /\
    s_eoc st = None /\ s_parser st = PWarc /\ s_kind st <> SGzipFile /\ rest st = text /\ f_strict (s_fh st) = true.
Proof.
  assert (E : (Z.of_nat n <? 0)%Z = false) by lia. unfold warcextract. intros [(data & Hi & ->)|(data & Hi & ->)]; [rewrite (open_plain gunzip i _ Hi)|rewrite (open_gz gunzip i _ Hi)];
    unfold first_seek; cbn [new_stream s_kind]; unfold stream_seek, f_seek; rewrite E, Nat2Z.id; cbn [set_fh s_fh f_data f_strict s_kind s_eoc s_parser];
    (match goal with |- context [for_read_records _ _ _ _ ?s] => exists s end; split; [destruct (for_read_records _ _ _ _ _) as [[o out] st']; reflexivity|repeat split; discriminate]).
Qed.
Theorem C61_extract_at_a_record : forall gunzip (i : input) (n : nat) (w : wrec) (sep : bytes) (a : archive),
  archive_ok ((w, sep) :: a) -> extract_holds gunzip i n (archive_text ((w, sep) :: a)) ->
  warcextract gunzip i (Z.of_nat n) = (Ret tt, w_body w).
Proof.
  intros gunzip i n w sep a Hok Hf. destruct (extract_open gunzip i n _ Hf) as (st & -> & He & Hp & Hk & Hr & _).
  assert (Hat : at_text st (pos st) (archive_text ((w, sep) :: a))).
  { left. split; [exact He|]. exists []. split; [exact Hr|]. split; [split; [intros c []|auto]|]. cbn. lia. }
  destruct (read_first st _ w sep a false Hat Hp Hk (proj1 (Forall_inv Hok))) as (st1 & E & Hin & _).
  rewrite (one_record _ _ _ _ _ E). cbn [dump_body]. destruct (content_handed w st1 _ Hin) as (r' & E2 & _). rewrite E2. reflexivity.
Qed.
Theorem C61_extract_without_record : forall gunzip (i : input) (n : nat) (text : bytes),
  extract_holds gunzip i n text -> Forall (fun l => version_line l = false) (lines_of text) ->
  warcextract gunzip i (Z.of_nat n) =
  (if empty_list (junk_lines (lines_of text)) then Ret tt else Raise ENameError, []).
Proof.
  intros gunzip i n text Hf Hv. destruct (extract_open gunzip i n _ Hf) as (st & -> & He & Hp & Hk & Hr & _). subst text.
  destruct (read_no_version st He Hp Hk Hv) as (off & errs & st1 & E & H). rewrite (one_record _ _ _ _ _ E). cbn [dump_body].
  destruct errs as [|e es]; [rewrite (proj1 H eq_refl); reflexivity|]. destruct (junk_lines (lines_of (rest st))); [discriminate (proj2 H eq_refl)|reflexivity].
Qed.
(** a negative offset *)
Theorem C61_negative_offset : forall gunzip client (i : input) (z : Z), (z < 0)%Z ->
  warcpayload gunzip client i z = (Raise EOSError, []) /\
  (forall text, file_holds gunzip i text -> warcextract gunzip i z = (Raise EOSError, [])).
Proof.
  intros gunzip client i z Hz. assert (E : (z <? 0)%Z = true) by lia. split.
  - unfold warcpayload, f_seek. rewrite E. reflexivity.
  - intros text [Hi|Hi]; unfold warcextract; [rewrite (open_plain gunzip i _ Hi)|rewrite (open_gz gunzip i _ Hi)]; unfold first_seek; cbn [new_stream s_kind];
      unfold stream_seek, f_seek; rewrite E; reflexivity.
Qed.
(** a file with two records: at the second one, between them, and at the end *)
Definition two_records : archive :=
  [(mkw (B "WARC/1.0") [(B "WARC-Type", B "warcinfo"); (B "Content-Length", B "2")] (B "hi"), CRLF ++ CRLF);
   (mkw (B "WARC/1.0") [(B "WARC-Type", B "response"); (B "Content-Type", B "text/dns"); (B "Content-Length", B "1")] (B "x"), CRLF ++ CRLF)].
Example C61_case_ok : archive_ok two_records. Proof. apply archive_okb_sound. vm_compute. reflexivity. Qed.
Example C61_case : let i := mkin (B "a.warc") (archive_text two_records) in
  warcpayload (fun d => d) (fun d => Ret d) i (Z.of_nat (start_of two_records 1)) = (Ret tt, B "x") /\
  warcextract (fun d => d) i (Z.of_nat (start_of two_records 1 - 3)) = (Ret tt, B "x") /\
  warcextract (fun d => d) i (Z.of_nat (List.length (archive_text two_records) - 5)) = (Raise ENameError, []) /\
  warcextract (fun d => d) i (Z.of_nat (List.length (archive_text two_records) - 4)) = (Ret tt, []) /\
  warcextract (fun d => d) i 10000%Z = (Ret tt, []).
Proof. vm_compute. repeat split; reflexivity. Qed.
(** a compressed file of two members: warcextract at the start of the second one *)
Definition toy_gunzip (d : bytes) : bytes := filter (fun c => negb (N.eqb c 31 || N.eqb c 139)) d.
Definition two_members : bytes := concat (map (fun x => [31; 139]%N ++ wrec_text (fst x) ++ snd x) two_records).
Example C61_compressed_case : let n := 2 + start_of two_records 1 in
  extract_holds toy_gunzip (mkin (B "a.warc.gz") two_members) n (archive_text (skipn 1 two_records)) /\
  warcextract toy_gunzip (mkin (B "a.warc.gz") two_members) (Z.of_nat n) = (Ret tt, B "x") /\
  warcextract toy_gunzip (mkin (B "a.warc") two_members) (Z.of_nat n) = (Ret tt, B "x") /\
  warcpayload toy_gunzip (fun d => Ret d) (mkin (B "a.warc") two_members) (Z.of_nat n) = (Ret tt, B "x").
Proof.
  cbn zeta. split; [|vm_compute; repeat split; reflexivity].
  right. eexists. split; [split; [left; exists (B "a.warc"); reflexivity|reflexivity]|]. vm_compute. reflexivity.
Qed.
