(** C14 - C22, C25: records as objects, writing, compression, detection. *)
From Verif Require Export PropsParse.
From Coq Require Import String List.
Open Scope list_scope.

(** ** C14 *)
Lemma same_nameb_iff a b : same_nameb a b = true <-> same_name a b.
Proof. apply bytes_eqb_eq. Qed.
Lemma same_nameb_false a b : same_nameb a b = false <-> ~ same_name a b.
Proof. apply bytes_eqb_neq. Qed.
Lemma first_header_none name hs : first_header name hs = None <-> Forall (fun h => ~ same_name (fst h) name) hs.
Proof.
  induction hs as [|[n v] t IH]; [split; [constructor|reflexivity]|]. cbn [first_header]. destruct (same_nameb n name) eqn:E.
  - apply same_nameb_iff in E. split; [discriminate|]. intro H. inversion H; subst. contradiction.
  - apply same_nameb_false in E. rewrite IH. split; intro H; [constructor; assumption|inversion H; assumption].
Qed.
Lemma first_header_some name hs v : first_header name hs = Some v <->
  exists hs1 n hs2, hs = hs1 ++ (n, v) :: hs2 /\ same_name n name /\ Forall (fun h => ~ same_name (fst h) name) hs1.
Proof.
  induction hs as [|[m u] t IH].
  - split; [discriminate|]. intros (hs1 & n & hs2 & E & _). destruct hs1; discriminate.
  - cbn [first_header]. destruct (same_nameb m name) eqn:E.
    + apply same_nameb_iff in E. split.
      * intro H. injection H as ->. exists [], m, t. split; [reflexivity|]. split; [exact E|constructor].
      * intros ([|h hs1] & n & hs2 & Eh & Hn & Hf); injection Eh as; subst; [reflexivity|]. inversion Hf; subst. contradiction.
    + apply same_nameb_false in E. rewrite IH. split.
      * intros (hs1 & n & hs2 & -> & Hn & Hf). exists ((m, u) :: hs1), n, hs2. split; [reflexivity|]. split; [exact Hn|]. constructor; assumption.
      * intros ([|h hs1] & n & hs2 & Eh & Hn & Hf); injection Eh as; subst; [contradiction|]. inversion Hf; subst. exists hs1, n, hs2. auto.
Qed.
Theorem C14_get_header_first_match : forall (r : record) (name v : bytes),
  get_header r name = Some v <->
  exists hs1 n hs2, r_headers r = hs1 ++ (n, v) :: hs2 /\ lower n = lower name /\
                    Forall (fun h => lower (fst h) <> lower name) hs1.
Proof. intros r name v. unfold get_header. rewrite lookup_first. apply first_header_some. Qed.
Theorem C14_get_header_none : forall (r : record) (name : bytes),
  get_header r name = None <-> Forall (fun h => lower (fst h) <> lower name) (r_headers r).
Proof. intros r name. unfold get_header. rewrite lookup_first. apply first_header_none. Qed.
Theorem C14_properties_agree : forall (r : record) (v : bytes), r_class r = RWarc v ->
  rec_url r = get_header r (B "WARC-Target-URI") /\ rec_type r = get_header r (B "WARC-Type") /\
  rec_date r = get_header r (B "WARC-Date") /\ rec_id r = get_header r (B "WARC-Record-ID").
Proof. intros r v H. unfold rec_url, rec_type, rec_date, rec_id, url_name, date_name, is_warc. rewrite H. repeat split; reflexivity. Qed.
Example C14_case : let r := new_warc VERSION10 [(B "a", B "1"); (B "warc-TYPE", B "first"); (B "WARC-Type", B "second")] None [] CF_none in
  get_header r (B "WARC-Type") = Some (B "first") /\ rec_type r = Some (B "first") /\ get_header r (B "missing") = None.
Proof. vm_compute. repeat split; reflexivity. Qed.

(** ** C15 *)
Lemma filter_none {A} (f : A -> bool) l : Forall (fun x => f x = true) l -> filter f l = l.
Proof. induction 1 as [|x l Hx _ IH]; [reflexivity|]. cbn. rewrite Hx, IH. reflexivity. Qed.
Theorem C15_set_header : forall (r : record) (name value : bytes),
  exists others, r_headers (set_header r name value) = others ++ [(name, value)] /\
    ~ In name (map fst others) /\
    others = filter (fun h => if list_eq_dec N.eq_dec (fst h) name then false else true) (r_headers r) /\
    r_class (set_header r name value) = r_class r /\ r_errors (set_header r name value) = r_errors r /\
    r_content (set_header r name value) = r_content r /\ r_cf (set_header r name value) = r_cf r.
Proof.
  intros r name value. unfold set_header, with_headers. cbn [r_headers r_class r_errors r_content r_cf].
  assert (E : forall hs, filter (fun kv : header => negb (bytes_eqb (fst kv) name)) hs = filter (fun h => if list_eq_dec N.eq_dec (fst h) name then false else true) hs).
  { intro hs. apply filter_ext. intros [k v]. cbn [fst]. destruct (list_eq_dec N.eq_dec k name) as [->|H]; [rewrite bytes_eqb_refl; reflexivity|].
    apply bytes_eqb_neq in H. rewrite H. reflexivity. }
  eexists. split; [reflexivity|]. split; [|split; [apply E|auto]].
  intro Hi. apply in_map_iff in Hi as ([k v] & <- & Hi). apply filter_In in Hi as [_ Hi]. cbn [fst] in Hi. rewrite bytes_eqb_refl in Hi. discriminate.
Qed.
Lemma first_header_app name a b : first_header name (a ++ b) = match first_header name a with Some v => Some v | None => first_header name b end.
Proof. induction a as [|[n v] a IH]; [reflexivity|]. cbn [app first_header]. destruct (same_nameb n name); [reflexivity|exact IH]. Qed.
(** the other spellings of a name *)
Definition respelled (name : bytes) (h : header) : Prop := lower (fst h) = lower name /\ fst h <> name.
Theorem C15_get_after_set : forall (r : record) (name value : bytes),
  get_header (set_header r name value) name = Some value <->
  (Forall (fun h => ~ respelled name h) (r_headers r) \/
   exists hs1 n hs2, r_headers r = hs1 ++ (n, value) :: hs2 /\ respelled name (n, value) /\ Forall (fun h => ~ respelled name h) hs1).
Proof.
  intros r name value. unfold get_header, set_header, with_headers. cbn [r_headers]. rewrite lookup_first, first_header_app.
  generalize (r_headers r). intro hs. induction hs as [|[k v] hs IH].
  - cbn [filter first_header]. split; intros _; [left; constructor|]. unfold same_nameb. rewrite bytes_eqb_refl. reflexivity.
  - cbn [filter fst]. destruct (bytes_eqb k name) eqn:Ek.
    + apply bytes_eqb_eq in Ek. subst k. cbn [negb]. rewrite IH.
      assert (Hn : forall u, ~ respelled name (name, u)) by (intros u [_ H]; cbn in H; contradiction).
      split; (intros [H|(hs1 & n & hs2 & E & Hr & Hf)]; [left|right]).
      * constructor; auto.
      * exists ((name, v) :: hs1), n, hs2. rewrite E. split; [reflexivity|]. split; [exact Hr|constructor; auto].
      * inversion H; assumption.
      * destruct hs1 as [|h hs1]; injection E as; subst; [exfalso; exact (Hn _ Hr)|]. inversion Hf; subst. exists hs1, n, hs2. auto.
    + cbn [negb first_header]. apply bytes_eqb_neq in Ek. destruct (same_nameb k name) eqn:Es.
      * apply same_nameb_iff in Es. assert (Hr : respelled name (k, v)) by (split; assumption). split.
        -- intro H. injection H as ->. right. exists [], k, hs. split; [reflexivity|]. split; [exact Hr|constructor].
        -- intros [H|(hs1 & n & hs2 & E & Hr' & Hf)]; [inversion H; subst; contradiction|].
           destruct hs1 as [|h hs1]; injection E as; subst; [reflexivity|]. inversion Hf; subst. contradiction.
      * apply same_nameb_false in Es. assert (Hr : ~ respelled name (k, v)) by (intros [H _]; cbn in H; contradiction). rewrite IH.
        split; (intros [H|(hs1 & n & hs2 & E & Hr' & Hf)]; [left|right]).
        -- constructor; auto.
        -- exists ((k, v) :: hs1), n, hs2. rewrite E. split; [reflexivity|]. split; [exact Hr'|constructor; auto].
        -- inversion H; assumption.
        -- destruct hs1 as [|h hs1]; injection E as; subst; [contradiction|]. inversion Hf; subst. exists hs1, n, hs2. auto.
Qed.
Theorem C15_other_headers_unchanged : forall (r : record) (name value other : bytes),
  lower other <> lower name -> get_header (set_header r name value) other = get_header r other.
Proof.
  intros r name value other Ho. unfold get_header, set_header, with_headers. cbn [r_headers]. rewrite !lookup_first, first_header_app.
  assert (Hl : first_header other [(name, value)] = None).
  { cbn [first_header]. destruct (same_nameb name other) eqn:E; [|reflexivity]. apply same_nameb_iff in E. unfold same_name in E. congruence. }
  rewrite Hl. generalize (r_headers r). intro hs. induction hs as [|[k v] hs IH]; [reflexivity|]. cbn [filter fst]. destruct (bytes_eqb k name) eqn:Ek.
  - apply bytes_eqb_eq in Ek. subst k. cbn [negb first_header]. destruct (same_nameb name other) eqn:E; [|exact IH].
    apply same_nameb_iff in E. unfold same_name in E. congruence.
  - cbn [negb first_header]. destruct (same_nameb k other); [reflexivity|exact IH].
Qed.
Example C15_case :
  let r := new_warc VERSION10 [(B "X", B "1"); (B "y", B "2"); (B "X", B "3")] None [] CF_none in
  r_headers (set_header r (B "X") (B "new")) = [(B "y", B "2"); (B "X", B "new")] /\
  get_header (set_header r (B "Y") (B "new")) (B "Y") = Some (B "2").
Proof. vm_compute. split; reflexivity. Qed.

(** ** C16 *)
Theorem C16_written_length_and_type : forall (v : bytes) (hs : list header) (ct : option bytes) (body : bytes) (st : stream),
  let kept := filter (fun h => negb (bytes_eqb (fst h) (B "Content-Type") || bytes_eqb (fst h) (B "Content-Length"))) hs in
  let type_line := match ct with Some (c :: t) => B "Content-Type: " ++ (c :: t) ++ CRLF | _ => [] end in
  snd (write_to None CRLF (new_warc v hs (Some (ct, Some body)) [] CF_none) st) =
    v ++ CRLF ++ concat (map header_text kept) ++ type_line ++
    (B "Content-Length: " ++ dec_nat (List.length body) ++ CRLF) ++ CRLF ++ body ++ CRLF ++ CRLF /\
  py_int 10 (dec_nat (List.length body)) = Some (Z.of_nat (List.length body)) /\
  (forall h, In h kept <-> In h hs /\ fst h <> B "Content-Type" /\ fst h <> B "Content-Length").
Proof.
  intros v hs ct body st kept type_line. split; [|split; [apply py_int_dec_nat|]].
  - change (new_warc v hs (Some (ct, Some body)) [] CF_none) with (tuple_rec v hs ct body). rewrite write_tuple. cbn [snd]. cbn zeta.
    rewrite tuple_head. unfold kept, terminator, type_line. rewrite <- !app_assoc. do 3 f_equal. destruct ct as [[|c t]|]; reflexivity.
  - intro h. unfold kept. rewrite filter_In, negb_true_iff, orb_false_iff, !bytes_eqb_neq. reflexivity.
Qed.
(** a Content-Length supplied in another spelling is still written, first: after
    write and read the record object announces the wrong length although the
    payload is right *)
Theorem C16_respelled_length_contradicts : forall (v : bytes) (hs : list header) (ct : option bytes) (body n x : bytes) (z : Z) (st0 st : stream),
  In v versions -> Forall header_ok hs -> Forall header_clean hs -> (match ct with Some c => value_ok c | None => True end) ->
  hs = [(n, x)] -> lower n = lower (B "Content-Length") -> n <> B "Content-Length" -> py_int 10 x = Some z ->
  opened_on (snd (write_to None CRLF (new_warc v hs (Some (ct, Some body)) [] CF_none) st0)) st ->
  exists r st1, read_record st true = (Ret (Some 0, Some r, []), st1) /\
    fst (fst (rec_content_length r st1)) = Ret z /\ fst (stream_read st1 None) = Ret body.
Proof.
  intros v hs ct body n x z st0 st Hv Ho Hc Hct -> Hn Hne Hz Hst.
  change (new_warc v [(n, x)] (Some (ct, Some body)) [] CF_none) with (tuple_rec v [(n, x)] ct body) in Hst. rewrite write_tuple in Hst. cbn [snd] in Hst. cbn zeta in Hst.
  assert (Hw : wrec_ok (tuple_wrec v [(n, x)] ct body)).
  { apply tuple_wrec_ok; auto. eapply Forall_impl; [|exact Hc]. auto. }
  assert (Ht : wrec_text (tuple_wrec v [(n, x)] ct body) ++ terminator = archive_text [(tuple_wrec v [(n, x)] ct body, terminator)]).
  { rewrite archive_text_cons. unfold archive_text. cbn [map concat]. rewrite app_nil_r. reflexivity. }
  rewrite Ht in Hst. destruct (opened_at _ _ _ Hst eq_refl) as (Hat & Hp & Hk).
  destruct (read_first st 0 _ _ [] true Hat Hp) as (st1 & E & Hi & _); [rewrite Hk; discriminate|exact Hw|].
  eexists. exists st1. rewrite Hk in E. split; [exact E|]. split.
  - unfold rec_content_length. cbn [handed parsed_rec r_content]. unfold get_header. rewrite lookup_first. cbn [r_headers handed parsed_rec tuple_wrec w_headers].
    unfold tuple_headers. cbn [filter]. unfold supplied_by_content. cbn [fst].
    assert (E1 : bytes_eqb n (B "Content-Type") = false) by (apply bytes_eqb_neq; intros ->; discriminate).
    assert (E2 : bytes_eqb n (B "Content-Length") = false) by (apply bytes_eqb_neq; exact Hne).
    rewrite E1, E2. cbn [orb negb app first_header].
    match goal with |- context [same_nameb n ?a] => assert (E3 : same_nameb n a = true) by (apply same_nameb_iff; exact Hn) end.
    rewrite E3, Hz. reflexivity.
  - rewrite (read_rest _ _ _ Hi). reflexivity.
Qed.
Example C16_case : snd (write_to None CRLF (new_warc (B "WARC/1.0") [(B "content-length", B "99"); (B "Content-Length", B "7")]
     (Some (Some (B "text/plain"), Some (B "hi"))) [] CF_none) (new_stream SPlain (mkfile [] 0 true) PWarc)) =
  B "WARC/1.0" ++ CRLF ++ B "content-length: 99" ++ CRLF ++ B "Content-Type: text/plain" ++ CRLF ++ B "Content-Length: 2" ++ CRLF ++ CRLF ++ B "hi" ++ CRLF ++ CRLF.
Proof. vm_compute. reflexivity. Qed.

(** ** C17, C18 *)
Theorem C17_content_file_copied_once : forall (gz : option gzipper) (v : bytes) (hs : list header) (rd : reader) (st st2 : stream),
  Forall (fun p => p <> []) rd ->
  let r := new_warc v hs None [] (CF_own rd) in
  exists r', write_to gz CRLF r st =
    (Ret tt, r', st, let d := head_text v hs ++ concat rd ++ CRLF ++ CRLF in match gz with None => d | Some deflate => deflate d end) /\
  write_to gz CRLF r' st2 = (Raise E_used, r', st2, []).
Proof.
  intros gz v hs rd st st2 Hrd r. destruct (write_own gz v hs [] rd st) as [rd' E].
  assert (Ey : yields rd = concat rd).
  { clear - Hrd. induction Hrd as [|p rd Hp _ IH]; [reflexivity|]. cbn [yields concat]. destruct p; [contradiction|]. rewrite IH. reflexivity. }
  eexists. split; [unfold r; rewrite E, Ey; reflexivity|]. reflexivity.
Qed.
Theorem C18_tuple_writes_repeat : forall (gz : option gzipper) (v : bytes) (hs : list header) (ct body : option bytes) (errs : list perr) (st st2 : stream),
  let r := new_warc v hs (Some (ct, body)) errs CF_none in
  exists text, write_to gz CRLF r st = (Ret tt, r, st, text) /\ write_to gz CRLF r st2 = (Ret tt, r, st2, text).
Proof.
  intros gz v hs ct body errs st st2 r. eexists. split; apply (write_tuple_gen gz r v hs ct body); reflexivity.
Qed.
(** asking such a record for its content uses the file up and keeps what was read: from then on it is
    the record one would have made from that content, as often as one likes *)
Theorem C17_content_file_read_then_written : forall (v : bytes) (hs : list header) (rd : reader) (errs : list perr) (st : stream),
  let ct := first_header (B "Content-Type") hs in
  exists r', rec_content (new_warc v hs None errs (CF_own rd)) st = (Ret (ct, Some (concat rd)), r', st) /\
  (forall st2, rec_content r' st2 = (Ret (ct, Some (concat rd)), r', st2)) /\
  forall gz st2, exists text, write_to gz CRLF r' st2 = (Ret tt, r', st2, text) /\
    snd (write_to gz CRLF (new_warc v hs (Some (ct, Some (concat rd))) errs CF_none) st2) = text.
Proof.
  intros v hs rd errs st ct. eexists. split; [|split].
  - unfold rec_content. cbn [new_warc with_cf r_content r_cf]. unfold get_header. rewrite lookup_first. reflexivity.
  - intro st2. reflexivity.
  - intros gz st2. eexists. split; [apply (write_tuple_gen gz _ v hs ct (Some (concat rd))); reflexivity|].
    rewrite (write_tuple_gen gz _ v hs ct (Some (concat rd))); reflexivity.
Qed.
Example C17_case : Forall (fun p : bytes => p <> []) [B "first "; B "second"].
Proof. repeat constructor; discriminate. Qed.

(** ** C19 *)
Lemma ready_at st pos x : ready st pos x -> at_text st pos x /\ s_parser st = PWarc /\ s_kind st = SPlain.
Proof.
  intros (Hk & Hp & He & Hpos & Hr). split; [|split; assumption]. left. split; [exact He|]. exists []. split; [exact Hr|].
  split; [split; [intros c []|left; reflexivity]|]. change (f_pos (s_fh st) + 0 = pos). lia.
Qed.
Theorem C19_content_read_once : forall (w : wrec) (sep : bytes) (a : archive) (st : stream) (pos : nat),
  ready st pos (archive_text ((w, sep) :: a)) -> archive_ok ((w, sep) :: a) ->
  exists r st1 r' st2, read_record st true = (Ret (Some pos, Some r, []), st1) /\
    rec_content r st1 = (Ret (first_header (B "Content-Type") (w_headers w), Some (w_body w)), r', st2) /\
    r_cf r' = CF_none /\ r_headers r' = w_headers w /\
    forall st3, rec_content r' st3 = (Ret (first_header (B "Content-Type") (w_headers w), Some (w_body w)), r', st3).
Proof.
  intros w sep a st pos Hst Hok. destruct (ready_at _ _ _ Hst) as (Hat & Hp & Hk). pose proof (Forall_inv Hok) as [Hw _]. cbn [fst] in Hw.
  destruct (read_first st pos w sep a true Hat Hp) as (st1 & E & Hi & _); [rewrite Hk; discriminate|exact Hw|]. rewrite Hk in E.
  exists (handed w), st1. do 2 eexists. split; [exact E|].
  rewrite (rec_content_payload (handed w) st1 (w_body w) (sep ++ archive_text a) eq_refl eq_refl Hi).
  assert (Eg : get_header (handed w) (ct_name (handed w)) = first_header (B "Content-Type") (w_headers w)).
  { unfold get_header. rewrite lookup_first. reflexivity. }
  rewrite Eg. split; [reflexivity|]. split; [reflexivity|]. split; [reflexivity|]. intro st3. reflexivity.
Qed.
(** content_length before and after reading, for a record that gives its length once *)
Theorem C19_content_length_agrees : forall (w : wrec) (sep : bytes) (a : archive) (st : stream) (pos : nat) (hs1 hs2 : list header) (n v : bytes),
  ready st pos (archive_text ((w, sep) :: a)) -> archive_ok ((w, sep) :: a) ->
  w_headers w = hs1 ++ (n, v) :: hs2 -> same_name n (B "Content-Length") ->
  Forall (fun h => ~ same_name (fst h) (B "Content-Length")) (hs1 ++ hs2) ->
  exists r st1 r' st2, read_record st true = (Ret (Some pos, Some r, []), st1) /\
    rec_content_length r st1 = (Ret (Z.of_nat (List.length (w_body w))), r, st1) /\
    rec_content r st1 = (Ret (first_header (B "Content-Type") (w_headers w), Some (w_body w)), r', st2) /\
    rec_content_length r' st2 = (Ret (Z.of_nat (List.length (w_body w))), r', st2).
Proof.
  intros w sep a st pos hs1 hs2 n v Hst Hok Eh Hn Hno. destruct (ready_at _ _ _ Hst) as (Hat & Hp & Hk). pose proof (Forall_inv Hok) as [Hw _]. cbn [fst] in Hw.
  destruct (read_first st pos w sep a true Hat Hp) as (st1 & E & Hi & _); [rewrite Hk; discriminate|exact Hw|]. rewrite Hk in E.
  assert (Eg : get_header (handed w) (ct_name (handed w)) = first_header (B "Content-Type") (w_headers w)).
  { unfold get_header. rewrite lookup_first. reflexivity. }
  exists (handed w), st1. do 2 eexists. split; [exact E|].
  rewrite (rec_content_payload (handed w) st1 (w_body w) (sep ++ archive_text a) eq_refl eq_refl Hi), Eg.
  split; [|split; [reflexivity|reflexivity]].
  unfold rec_content_length. change (r_content (handed w)) with (@None (option bytes * option bytes)). cbn iota.
  assert (El : get_header (handed w) (cl_name (handed w)) = Some v).
  { unfold get_header. rewrite lookup_first. apply first_header_some. exists hs1, n, hs2. split; [exact Eh|]. split; [exact Hn|]. apply Forall_app in Hno as [H _]. exact H. }
  rewrite El.
  destruct Hw as (_ & _ & _ & Hl). rewrite Eh in Hl.
  assert (Hz : exists z, py_int 10 v = Some z).
  { pose proof (Forall_inv Hok) as [(_ & _ & Hc & _) _]. cbn [fst] in Hc. rewrite Eh in Hc. apply Forall_app in Hc as [_ Hc]. inversion Hc as [|? ? [_ H] _]; subst. apply H. exact Hn. }
  destruct Hz as [z Hz]. rewrite (C24_last_valid_length_counts hs1 hs2 n v z Hn Hz) in Hl.
  - rewrite Hz, Hl. reflexivity.
  - apply Forall_app in Hno as [_ H]. eapply Forall_impl; [|exact H]. intros h Hh [Hs _]. exact (Hh Hs).
Qed.
(** content_type does not read the payload when there is a Content-Type header *)
Theorem C19_content_type_is_lazy : forall (r : record) (ct : bytes) (st : stream),
  r_content r = None -> get_header r (ct_name r) = Some ct -> rec_content_type r st = (Ret (Some ct), r, st).
Proof. intros r ct st H1 H2. unfold rec_content_type. rewrite H1, H2. reflexivity. Qed.
Example C19_case : archive_ok [(cut_sample, terminator)] /\
  w_headers cut_sample = [(B "WARC-Type", B "response")] ++ (B "Content-Length", B "4") :: [].
Proof. split; [apply archive_okb_sound; vm_compute; reflexivity|reflexivity]. Qed.

(** ** C20: compression.  [deflate d] is the gzip member Python's GzipFile writes
    for the contents [d], [gunzip] what it reads back; all that is used about
    them is that members start with the gzip magic number and that decompressing
    concatenated members gives their contents concatenated. *)
Definition gzip_pair (deflate gunzip : bytes -> bytes) : Prop :=
  (forall d, exists t, deflate d = [31; 139]%N ++ t) /\
  (forall ds, gunzip (concat (map deflate ds)) = concat ds).
Theorem C20_member_holds_plain_write : forall (deflate : gzipper) (r : record) (st : stream),
  let plain := write_to None CRLF r st in
  let packed := write_to (Some deflate) CRLF r st in
  fst packed = fst plain /\
  (fst (fst (fst plain)) = Ret tt -> r_cf r <> CF_unset -> snd packed = deflate (snd plain)).
Proof.
  intros deflate r st. cbn zeta. unfold write_to. destruct (r_cf r) eqn:Ec.
  - split; [reflexivity|]. intros H. discriminate.
  - destruct (has_cf r && negb (r_valid r)); [split; [reflexivity|discriminate]|].
    destruct (rec_write CRLF r st) as [[[[|?|] r'] st'] out]; cbn [fst snd]; split; try reflexivity; try discriminate.
  - destruct (has_cf r && negb (r_valid r)); [split; [reflexivity|discriminate]|].
    destruct (rec_write CRLF r st) as [[[[|?|] r'] st'] out]; cbn [fst snd]; split; try reflexivity; try discriminate.
  - destruct (has_cf r && negb (r_valid r)); [split; [reflexivity|discriminate]|].
    destruct (rec_write CRLF r st) as [[[[|?|] r'] st'] out]; cbn [fst snd]; split; try reflexivity; try discriminate.
Qed.
(** and a write that is broken off by an exception leaves what the compressor had got of it *)
Theorem C20_broken_off : forall (deflate : gzipper) (r : record) (st : stream),
  let plain := write_to None CRLF r st in
  let packed := write_to (Some deflate) CRLF r st in
  r_cf r <> CF_unset -> (has_cf r = true -> r_valid r = true) ->
  fst (fst (fst plain)) <> Ret tt -> snd packed = torn deflate (snd plain).
Proof.
  intros deflate r st. cbn zeta. intros Hc Hv. unfold write_to.
  assert (E : has_cf r && negb (r_valid r) = false) by (destruct (has_cf r); [rewrite Hv by reflexivity|]; reflexivity).
  rewrite E. destruct (r_cf r); [contradiction| | |];
  (destruct (rec_write CRLF r st) as [[[[[]|?|] r'] st'] out]; cbn [fst snd]; intro H; [contradiction|reflexivity|reflexivity]).
Qed.
Example C20_broken_off_case : exists (r : record) (st : stream), r_cf r <> CF_unset /\ (has_cf r = true -> r_valid r = true) /\
  fst (fst (fst (write_to None CRLF r st))) <> Ret tt /\ snd (write_to None CRLF r st) = B "WARC/1.0" ++ CRLF.
Proof.
  exists (new_warc (B "WARC/1.0") [] None [] CF_none), (new_stream SPlain (mkfile [] 0 true) PWarc).
  split; [discriminate|]. split; [discriminate|]. split; [vm_compute; discriminate|vm_compute; reflexivity].
Qed.
Lemma take_line_version v x : In v versions -> take_line (v ++ CRLF ++ x) = v ++ CRLF.
Proof.
  intro H. change (v ++ CRLF ++ x) with (v ++ [13%N] ++ 10%N :: x). rewrite app_assoc, take_line_lf.
  - rewrite <- app_assoc. reflexivity.
  - destruct (version_known v H) as (_ & _ & _ & Hn). intro Hi. apply in_app_or in Hi as [Hi|[Hi|[]]]; [exact (Hn Hi)|discriminate].
Qed.
Lemma skipn_0_all (x : bytes) : skipn 0 x = x. Proof. reflexivity. Qed.
Lemma version_detected v : In v versions -> first_type archive_types (v ++ CRLF) = Some TWarc.
Proof. intros [<-|[<-|[<-|[]]]]; vm_compute; reflexivity. Qed.
(** how the stream comes out of open_archive *)
Lemma opened_gzip (deflate : gzipper) gunzip l st0 : gzip_pair deflate gunzip -> Forall source_ok l -> l <> [] ->
  let file := snd (write_all (Some deflate) (map source_record l) st0) in
  forall c strict, c = AArchive \/ c = AWarc ->
  open_stream gunzip c false GAuto (mkfile file 0 strict) =
    Ret (new_stream SGzipRecord (mkfile (archive_text (written l)) 0 true) PWarc).
Proof.
  intros [Hm Hg] Hl Hne file c strict Hc.
  assert (Ef : file = concat (map deflate (map (fun x => wrec_text (source_wrec x) ++ terminator) l))).
  { unfold file. rewrite write_all_text. cbn [snd]. rewrite map_map. reflexivity. }
  assert (Eg : gunzip file = archive_text (written l)) by (rewrite Ef, Hg, written_text; reflexivity).
  destruct l as [|x l]; [contradiction|]. inversion Hl as [|? ? Hx _]; subst.
  assert (Et : exists t, file = [31; 139]%N ++ t).
  { rewrite Ef. cbn [map concat]. destruct (Hm (wrec_text (source_wrec x) ++ terminator)) as [t ->]. eexists. rewrite <- app_assoc. reflexivity. }
  destruct Et as [t Et].
  assert (Eis : is_gzip_file (mkfile file 0 strict) = (true, mkfile file 0 strict)).
  { unfold is_gzip_file, f_read, f_rest. cbn [f_pos f_data skipn]. rewrite Et. cbn [app Z.ltb Z.compare Z.to_nat Pos.to_nat Pos.iter_op Nat.add firstn length f_advance f_pos f_data f_strict].
    reflexivity. }
  unfold open_stream. destruct Hc as [ -> | -> ].
  - unfold guess_record_type. rewrite Eis. cbn [f_tell f_pos f_rest f_data skipn]. rewrite Eg.
    assert (Eline : take_line (archive_text (written (x :: l))) = w_version (source_wrec x) ++ CRLF).
    { unfold written. cbn [map]. rewrite archive_text_cons. unfold wrec_text, head_text. rewrite <- !app_assoc. apply take_line_version.
      apply source_wrec_ok in Hx. apply Hx. }
    rewrite Eline, version_detected by (apply source_wrec_ok in Hx; apply Hx).
    unfold f_seek. cbn [Z.of_nat Z.ltb Z.compare snd f_advance f_data Z.to_nat f_strict]. rewrite Eis.
    unfold decompressed, f_rest. cbn [f_pos f_data skipn]. rewrite Eg. reflexivity.
  - rewrite Eis. unfold decompressed, f_rest. cbn [f_pos f_data skipn]. rewrite Eg. reflexivity.
Qed.
Definition no_offset (x : seen) : seen :=
  match x with
  | Seen _ v hs e ct d => Seen None v hs e ct d
  | SeenEnd _ e => SeenEnd None e
  end.
Lemma seen_no_offset a : forall s1 s2, seen_archive (fun _ => None) s1 a = map no_offset (seen_archive Some s2 a).
Proof. induction a as [|[w s] a IH]; intros s1 s2; [reflexivity|]. cbn [seen_archive map]. rewrite (IH _ (s2 + List.length (wrec_text w) + List.length s)). reflexivity. Qed.
Theorem C20_compressed_archive_holds_same_records : forall (deflate : gzipper) (gunzip : bytes -> bytes) (l : list source) (st0 : stream) (c : aclass) (strict : bool),
  gzip_pair deflate gunzip -> Forall source_ok l -> l <> [] -> c = AArchive \/ c = AWarc ->
  exists plain packed st1 st2 sp sz seen,
    write_all None (map source_record l) st0 = (Ret tt, plain) /\
    write_all (Some deflate) (map source_record l) st0 = (Ret tt, packed) /\
    gunzip packed = plain /\
    open_stream gunzip AWarc false GNone (mkfile plain 0 strict) = Ret sp /\
    open_stream gunzip c false GAuto (mkfile packed 0 strict) = Ret sz /\
    for_read_records None true look [] sp = (Ret tt, seen, st1) /\
    for_read_records None true look [] sz = (Ret tt, map no_offset seen, st2) /\
    seen = seen_archive Some 0 (written l).
Proof.
  intros deflate gunzip l st0 c strict Hgz Hl Hne Hc. pose proof (written_ok l Hl) as Hok.
  pose proof (opened_gzip deflate gunzip l st0 Hgz Hl Hne c strict Hc) as Ho. cbn zeta in Ho. rewrite write_all_text in Ho. cbn [snd] in Ho.
  destruct (read_archive_plain (written l) (new_stream SPlain (mkfile (archive_text (written l)) 0 strict) PWarc) Hok (ex_intro _ strict eq_refl)) as ((st1 & E1) & _).
  destruct (for_read_records_archive look look_step look_fin (written l) None true [] (new_stream SGzipRecord (mkfile (archive_text (written l)) 0 true) PWarc) 0) as (st2 & E2); auto.
  { apply look_visits. }
  { left. split; [reflexivity|]. exists []. split; [reflexivity|]. split; [split; [intros x []|left; reflexivity]|reflexivity]. }
  { discriminate. }
  rewrite visit_look, look_list_all in E2. cbn [app] in E2. change (item_offset (s_kind (new_stream SGzipRecord _ PWarc)) true) with (fun _ : nat => @None nat) in E2.
  rewrite (seen_no_offset _ 0 0) in E2.
  do 7 eexists. split; [rewrite write_all_text; reflexivity|]. split; [rewrite write_all_text; reflexivity|]. split.
  - destruct Hgz as [_ Hg]. cbn zeta. rewrite <- (map_map (fun x => wrec_text (source_wrec x) ++ terminator) deflate). apply Hg.
  - split; [reflexivity|]. split; [exact Ho|]. split; [|split; [exact E2|reflexivity]]. rewrite <- written_text. exact E1.
Qed.
(** such a pair exists: a toy compression where every byte b is stored as 1 b and
    the member ends in 0 *)
Definition toy_deflate (d : bytes) : bytes := [31; 139]%N ++ concat (map (fun b => [1%N; b]) d) ++ [0%N].
Fixpoint toy_gunzip (s : bytes) : bytes :=
  match s with
  | 1%N :: b :: t => b :: toy_gunzip t
  | _ :: t => toy_gunzip t
  | [] => []
  end.
Lemma toy_body d x : toy_gunzip (concat (map (fun b => [1%N; b]) d) ++ 0%N :: x) = d ++ toy_gunzip x.
Proof. induction d as [|b d IH]; [destruct x; reflexivity|]. cbn [map concat app toy_gunzip]. rewrite IH. reflexivity. Qed.
Example C20_hypothesis_met : gzip_pair toy_deflate toy_gunzip.
Proof.
  split; [intro d; eexists; reflexivity|]. induction ds as [|d ds IH]; [reflexivity|]. cbn [map concat]. unfold toy_deflate at 1. rewrite <- !app_assoc. cbn [app].
  assert (E : forall s, toy_gunzip (31%N :: 139%N :: s) = toy_gunzip s) by reflexivity. rewrite E, toy_body, IH. reflexivity.
Qed.

(** ** C21, C22 *)
Theorem C21_no_offsets_when_compressed : forall (st st' : stream) (offsets : bool) (off : option nat) (r : option record) (errs : list perr),
  s_kind st = SGzipRecord -> read_record st offsets = (Ret (off, r, errs), st') -> off = None.
Proof.
  intros st st' b off r errs Hk. unfold read_record. rewrite Hk.
  destruct (match s_eoc st with Some _ => skip_to_eoc st | None => (Ret tt, st) end) as [[u|e|] st1]; [|discriminate|discriminate].
  destruct (skip_blank (s_fh (set_eoc st1 None))) as [[[p line]|e|] f3]; [|discriminate|discriminate].
  destruct (run_parser _ None line) as [[[[r0 errs0] off0]|e|] st4]; [|discriminate|discriminate].
  intro H. injection H as <- _ _ _. reflexivity.
Qed.
Theorem C22_whole_file_gzip_never_returns_a_record : forall (st st' : stream) (offsets : bool) (it : item),
  s_kind st = SGzipFile -> read_record st offsets <> (Ret it, st').
Proof.
  intros st st' b it Hk. unfold read_record. rewrite Hk.
  destruct (match s_eoc st with Some _ => skip_to_eoc st | None => (Ret tt, st) end) as [[u|e|] st1]; [|discriminate|discriminate].
  destruct (skip_blank (s_fh (set_eoc st1 None))) as [[[p line]|e|] f3]; [|discriminate|discriminate].
  destruct (run_parser _ None line) as [[[[r0 errs0] off0]|e|] st4]; discriminate.
Qed.
Lemma run_parser_warc st off line : s_parser st = PWarc -> run_parser st off line = warc_parse st off (Some line).
Proof. intro H. unfold run_parser. rewrite H. reflexivity. Qed.
(** the errors that come first are those of the header block; otherwise NameError *)
Lemma read_record_gzfile st b :
  s_eoc st = None -> s_parser st = PWarc -> s_kind st = SGzipFile ->
  match wparse (lines_of (rest st)) with
  | WNone _ _ | WRec _ _ _ _ => fst (read_record st b) = Raise ENameError
  | WBadVersion _ => fst (read_record st b) = Raise ETypeError
  | WHang => fst (read_record st b) = Diverge
  end.
Proof.
  intros He Hp Hk. rewrite wparse_after_blank by apply lines_ok. set (ls := lines_of (rest st)). set (k := blank_lines ls).
  unfold read_record. rewrite He.
  assert (Est : set_eoc st None = st) by (rewrite <- He; apply set_eoc_eta). rewrite Est.
  rewrite (skip_blank_eq (s_fh st)). change (lines_of (f_rest (s_fh st))) with ls. fold k.
  set (st1 := adv st k).
  assert (Hls1 : lines_of (rest st1) = after_blank ls).
  { destruct (blank_lines_split ls) as (bs & E & L). unfold st1. rewrite rest_adv.
    apply (lines_of_skip_lines _ _ bs); [exact E|]. symmetry. exact L. }
  assert (Eadv : set_fh st (f_advance (s_fh st) (k + List.length (first_text ls))) = adv st1 (List.length (hd [] (after_blank ls)))).
  { rewrite <- first_text_after. unfold st1. rewrite adv_adv. reflexivity. }
  rewrite Eadv, first_text_after. unfold run_parser.
  change (s_parser (adv st1 ?n)) with (s_parser st). rewrite Hp, Hk.
  assert (Hlen : List.length (after_blank ls) < file_fuel (s_fh (adv st1 (List.length (hd [] (after_blank ls)))))).
  { rewrite fuel_adv. unfold st1. rewrite fuel_adv. pose proof (rest_fuel st). pose proof (lines_length (rest st)).
    pose proof (after_blank_length ls). unfold ls in *. lia. }
  pose proof (warc_parse_spec (after_blank ls) st1 None _ He Hls1 Hlen) as H. cbn zeta in H.
  unfold warc_parse.
  match type of H with context [warc_parse_fuel ?a ?b ?c ?d] =>
    match goal with |- context [warc_parse_fuel ?a' ?b' ?c' ?d'] =>
      change (warc_parse_fuel a' b' c' d') with (warc_parse_fuel a b c d) end;
    destruct (warc_parse_fuel a b c d) as [res s4] end.
  destruct (wparse (after_blank ls)) as [errs n|r clen s n|num|]; cbn [shift].
  - injection H as -> ->. reflexivity.
  - injection H as -> ->. reflexivity.
  - cbn [fst] in H. subst res. reflexivity.
  - cbn [fst] in H. subst res. reflexivity.
Qed.
Theorem C22_whole_file_gzip_raises_NameError : forall (text : bytes) (strict offsets : bool),
  let here k := new_stream k (mkfile text 0 strict) PWarc in
  fst (read_record (here SGzipFile) offsets) =
  match fst (read_record (here SPlain) offsets) with
  | Ret _ => Raise ENameError
  | Raise e => Raise e
  | Diverge => Diverge
  end.
Proof.
  intros text strict b here. pose proof (read_record_gzfile (here SGzipFile) b eq_refl eq_refl eq_refl) as H1.
  pose proof (read_record_any (here SPlain) b eq_refl eq_refl ltac:(discriminate)) as H2. cbn zeta in H2.
  change (rest (here SGzipFile)) with (rest (here SPlain)) in H1.
  destruct (wparse (lines_of (rest (here SPlain)))); rewrite H1; rewrite H2; reflexivity.
Qed.

(** ** C25 *)
Theorem C25_gzip_detection : forall (f : file),
  snd (is_gzip_file f) = f /\ (fst (is_gzip_file f) = true <-> exists t, f_rest f = [31; 139]%N ++ t).
Proof.
  intros [d p s]. unfold is_gzip_file, f_read. cbn [Z.ltb Z.compare]. set (sig := firstn (Z.to_nat 2) (f_rest (mkfile d p s))). split.
  - cbn [snd]. unfold f_seek_cur, f_seek, f_advance. cbn [f_pos f_data f_strict].
    destruct (Z.ltb_spec (Z.of_nat (p + List.length sig) + - Z.of_nat (List.length sig)) 0) as [H|H]; [lia|]. cbn [snd]. f_equal. lia.
  - cbn [fst]. rewrite bytes_eqb_eq. unfold sig, GZIP_MAGIC. change (Z.to_nat 2) with 2. destruct (f_rest (mkfile d p s)) as [|a [|b t]]; cbn [firstn app].
    + split; [discriminate|]. intros [t E]. discriminate.
    + split; [discriminate|]. intros [t E]. discriminate.
    + split; [intro E; injection E as -> ->; eauto|]. intros [u E]. injection E as -> -> _. reflexivity.
Qed.
Lemma blank_rx_test l : re_test blank_rx l = true <-> l = [] \/ l = [LF].
Proof.
  unfold re_test, re_match, blank_rx. cbn [rmatch]. destruct l as [|c [|d t]].
  - split; auto.
  - split.
    + destruct (N.eq_dec c 10) as [->|Hc]; [auto|]. intro H. exfalso. revert H. destruct c as [|q]; [discriminate|]. do 4 (destruct q as [q|q|]; try discriminate; try congruence).
    + intros [H|H]; [discriminate|]. injection H as ->. reflexivity.
  - split; [|intros [H|H]; discriminate]. intro H. exfalso. revert H. destruct c as [|q]; [discriminate|]. do 4 (destruct q as [q|q|]; try discriminate).
Qed.
Lemma rstr_test p s : re_test (RSeq RBol (rstr p)) s = startswith p s.
Proof.
  unfold re_test, re_match. cbn [rmatch]. assert (G : forall p pre s g, rmatch (rstr p) pre s g (fun _ _ g => Some g) = if startswith p s then Some g else None).
  { clear. induction p as [|c p IH]; intros pre s g; [reflexivity|]. cbn [rstr rmatch lit startswith]. destruct s as [|d s]; [reflexivity|].
    unfold lit. cbn [rmatch]. destruct (N.eqb c d); [|reflexivity]. cbn [andb]. apply IH. }
  rewrite G. destruct (startswith p s); reflexivity.
Qed.
Lemma rest_take_line f : one_line (take_line (f_rest f)). Proof. apply take_line_one_line. Qed.
(** which type a first line announces *)
Definition line_type (l : bytes) : option rtype :=
  if version_line l then Some TWarc
  else match l with
       | [] | [10%N] => Some TWarc
       | _ => if startswith (B "filedesc://") l then Some TArc else None
       end.
Lemma first_type_line l : one_line l -> first_type archive_types l = line_type l.
Proof.
  intro H1. cbn [archive_types first_type]. unfold line_type, filedesc_rx. rewrite rstr_test.
  assert (Ev : re_test version_rx l = version_line l).
  { destruct l as [|c l]; [reflexivity|]. unfold re_test. rewrite version_rx_form by exact H1.
    destruct (version_line (c :: l)) eqn:E.
    - apply version_line_as in E as (pfx & ws & tag & num & nl & E). rewrite (version_as_parts _ _ _ _ _ _ H1 E). reflexivity.
    - apply (version_line_none _ H1) in E; [|discriminate]. rewrite E. reflexivity. }
  rewrite Ev. destruct (version_line l); [reflexivity|].
  destruct (re_test blank_rx l) eqn:Eb.
  - apply blank_rx_test in Eb as [ -> | -> ]; reflexivity.
  - destruct l as [|c t]; [discriminate|]. assert (Hn : c :: t <> [10%N]) by (intro E; rewrite E in Eb; discriminate).
    destruct t as [|d t].
    + destruct (N.eq_dec c 10) as [->|Hc]; [contradiction|]. destruct c as [|q]; [reflexivity|]. do 4 (destruct q as [q|q|]; try reflexivity; try congruence).
    + destruct c as [|q]; [reflexivity|]. do 4 (destruct q as [q|q|]; try reflexivity).
Qed.
Theorem C25_type_detection : forall (gunzip : bytes -> bytes) (f : file),
  snd (guess_record_type gunzip f) = f /\ fst (guess_record_type gunzip f) =
    line_type (take_line (if fst (is_gzip_file f) then gunzip (f_rest f) else f_rest f)).
Proof.
  intros gunzip f. unfold guess_record_type. destruct (C25_gzip_detection f) as [Hs _]. destruct (is_gzip_file f) as [gz f1]. cbn [fst snd] in *. subst f1.
  destruct gz.
  - cbn [fst snd]. split; [|apply first_type_line, take_line_one_line]. unfold f_seek. destruct (Z.ltb_spec (Z.of_nat (f_tell f)) 0); [lia|].
    cbn [snd]. rewrite Nat2Z.id. destruct f; reflexivity.
  - unfold f_readline. cbn [fst snd]. split; [|apply first_type_line, take_line_one_line]. unfold f_seek. destruct (Z.ltb_spec (Z.of_nat (f_tell f)) 0); [lia|].
    cbn [snd]. rewrite Nat2Z.id. destruct f; reflexivity.
Qed.
(** opening with auto detection picks compression and parser from the contents *)
Theorem C25_open_auto : forall (gunzip : bytes -> bytes) (f : file),
  open_stream gunzip AArchive false GAuto f =
  match line_type (take_line (if fst (is_gzip_file f) then gunzip (f_rest f) else f_rest f)) with
  | None => Raise E_guess
  | Some t =>
      let p := match t with TWarc => PWarc | TArc => PArc arc_init end in
      Ret (if fst (is_gzip_file f) then new_stream SGzipRecord (mkfile (gunzip (f_rest f)) 0 true) p
           else new_stream SPlain f p)
  end.
Proof.
  intros gunzip f. unfold open_stream. destruct (C25_type_detection gunzip f) as [H1 H2].
  destruct (guess_record_type gunzip f) as [t f']. cbn [fst snd] in *. subst f' t.
  destruct (C25_gzip_detection f) as [Hs _]. destruct (is_gzip_file f) as [gz f1] eqn:Eg. cbn [fst snd] in *. subst f1.
  destruct (line_type _) as [[|]|]; [| |reflexivity]; rewrite Eg; destruct gz; reflexivity.
Qed.
Example C25_cases : line_type (B "WARC/1.0" ++ CRLF) = Some TWarc /\ line_type (B "filedesc://x 0.0.0.0 1 text/plain 5" ++ [LF]) = Some TArc /\ line_type [LF] = Some TWarc /\ line_type (B "<html>" ++ [LF]) = None.
Proof. vm_compute. repeat split; reflexivity. Qed.
