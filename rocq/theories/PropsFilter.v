(** C47: warcfilter. *)
From Verif Require Export PropsTools.
From Coq Require Import String List Lia Permutation.
Open Scope list_scope.

(** ** Specification *)
Definition header_of (name : String.string) (w : wrec) : option bytes := first_header (B name) (w_headers w).
Definition found_in (search : bytes -> bool) (o : option bytes) : bool :=
  match o with Some v => negb (bytes_eqb v []) && search v | None => false end.
(** does the record match, for the options -U, -T, -C, -D and none of them *)
Definition matches (search : bytes -> bool) (opt : fopt) (w : wrec) : bool :=
  match opt with
  | FUrl => found_in search (header_of "WARC-Target-URI" w)
  | FType => found_in search (header_of "WARC-Type" w)
  | FContentType => found_in search (header_of "Content-Type" w)
  | FDate => found_in search (header_of "WARC-Date" w)
  | _ => existsb (fun kv => search (snd kv)) (w_headers w) || search (w_body w)
  end.
Definition selected (search : bytes -> bool) (opt : fopt) (invert : bool) (w : wrec) : bool :=
  xorb (matches search opt w) invert.
(** how a selected record is written: without options its content has been read into
    memory first, and so has that of a record without Content-Type under -C *)
Definition as_written (opt : fopt) (w : wrec) : bytes :=
  canonical match opt with
            | FAny => from_memory w
            | FContentType => match header_of "Content-Type" w with Some _ => w | None => from_memory w end
            | _ => w
            end.

Lemma opt_search_found search o : opt_search search o = found_in search o.
Proof. destruct o as [[|c v]|]; reflexivity. Qed.
Lemma rec_url_handed w : rec_url (handed w) = header_of "WARC-Target-URI" w.
Proof. unfold rec_url, get_header. apply lookup_first. Qed.
Lemma rec_date_handed w : rec_date (handed w) = header_of "WARC-Date" w.
Proof. unfold rec_date, get_header. apply lookup_first. Qed.
Lemma ct_handed w : get_header (handed w) (ct_name (handed w)) = ctype w.
Proof. unfold get_header. apply lookup_first. Qed.
Definition add_if {A} (p : A -> bool) (f : A -> bytes) (acc : bytes) (x : A) : bytes := if p x then acc ++ f x else acc.
Lemma fold_add_if {A} (p : A -> bool) (f : A -> bytes) l : forall acc, fold_left (add_if p f) l acc = acc ++ concat (map f (filter p l)).
Proof.
  induction l as [|x l IH]; intro acc; cbn [fold_left filter]; [rewrite app_nil_r; reflexivity|].
  rewrite IH. unfold add_if. destruct (p x); cbn [map concat]; [rewrite <- app_assoc|]; reflexivity.
Qed.
Lemma emit_if_handed b out st w after : in_payload st (w_body w) after ->
  exists st', emit_if b out st (handed w) = (Ret tt, if b then out ++ canonical w else out, st') /\ used st (length (w_body w)) st'.
Proof.
  intro Hi. unfold emit_if. destruct b.
  - rewrite (emit_handed None out st (handed w) (w_version w) (w_headers w) (w_body w) after eq_refl eq_refl eq_refl eq_refl Hi).
    eexists. split; [destruct w; reflexivity|apply used_all].
  - eexists. split; [reflexivity|eapply used_refl; exact Hi].
Qed.
Lemma emit_if_memory b out st r' w : r_class r' = RWarc (w_version w) -> r_headers r' = w_headers w -> r_cf r' = CF_none ->
  r_content r' = Some (ctype w, Some (w_body w)) ->
  emit_if b out st r' = (Ret tt, if b then out ++ canonical (from_memory w) else out, st).
Proof. intros H1 H2 H3 H4. unfold emit_if. destruct b; [|reflexivity]. rewrite (emit_memory None out st r' _ _ _ _ H1 H2 H3 H4). reflexivity. Qed.
Lemma filter_iterates hg search opt invert a : opt <> FHttpType ->
  iterates (filter_record hg search opt invert) (add_if (selected search opt invert) (as_written opt)) a.
Proof.
  intros Ho s st w sep after _ Hi. unfold add_if, as_written, selected, matches. destruct opt; try contradiction; cbn [filter_record].
  - rewrite rec_url_handed, opt_search_found. apply (emit_if_handed _ _ _ _ _ Hi).
  - rewrite rec_type_handed, opt_search_found. apply (emit_if_handed _ _ _ _ _ Hi).
  - unfold rec_content_type at 1. cbn [handed parsed_rec r_content]. change (parsed_rec (w_version w) (w_headers w) []) with (handed w).
    rewrite ct_handed. change (header_of "Content-Type" w) with (ctype w). destruct (ctype w) as [v|] eqn:Ec.
    + destruct v as [|c v]; cbn [truthy].
      * change (found_in search (Some [])) with false. rewrite xorb_false_l. apply (emit_if_handed _ _ _ _ _ Hi).
      * unfold rec_content_type. cbn [handed parsed_rec r_content]. change (parsed_rec (w_version w) (w_headers w) []) with (handed w).
        rewrite ct_handed, Ec, opt_search_found. apply (emit_if_handed _ _ _ _ _ Hi).
    + destruct (content_handed w st after Hi) as (r' & E & H1 & H2 & H3 & H4). rewrite E, Ec. cbn [omap fst truthy found_in].
      rewrite (emit_if_memory invert s _ r' w H1 H2 H3 H4). rewrite xorb_false_l. eexists. split; [reflexivity|apply used_all].
  - rewrite rec_date_handed, opt_search_found. apply (emit_if_handed _ _ _ _ _ Hi).
  - destruct (content_handed w st after Hi) as (r' & E & H1 & H2 & H3 & H4). rewrite E.
    rewrite (emit_if_memory _ s _ r' w H1 H2 H3 H4). eexists. split; [reflexivity|apply used_all].
Qed.
Lemma filter_concat {A C} (p : A -> bool) (f : A -> bytes) (files : list C) (l : list (list (A * bytes))) : length files = length l ->
  concat (map (fun q => concat (map f (filter p (map fst (snd q))))) (combine files l)) = concat (map f (filter p (concat (map (map fst) l)))).
Proof.
  revert l. induction files as [|i files IH]; intros [|a l] H; try discriminate; [reflexivity|].
  cbn [combine map concat snd]. rewrite IH by (injection H; auto). rewrite filter_app, map_app, concat_app. reflexivity.
Qed.
Lemma over_archives gunzip (body : bytes -> stream -> record -> outcome unit * bytes * stream) (p : wrec -> bool) (f : wrec -> bytes) files l :
  (forall a, In a l -> iterates body (add_if p f) a) -> Forall2 (holds_archive gunzip) files l ->
  over_files gunzip (each_record body) files [] = (Ret tt, concat (map f (filter p (records l)))).
Proof.
  intros Hb H.
  rewrite (over_files_all gunzip _ (fun i a => In a l /\ holds_archive gunzip i a) (fun _ a => concat (map f (filter p (map fst a))))) with (l := l).
  - cbn [app]. f_equal. refine (filter_concat p f files l _). apply (Forall2_len _ _ _ H).
  - intros i a out (Hin & Hok & Hi). destruct (open_holds _ _ _ Hi) as (st & Eo & Hat & Hp & Hk). exists st. split; [exact Eo|]. unfold each_record.
    destruct (for_records_archive body (add_if p f) a out st 0 (Hb a Hin) Hok Hat Hp Hk) as [st' E]. rewrite E, fold_add_if. reflexivity.
  - clear Hb. assert (X : forall l', (forall a, In a l' -> In a l) -> Forall2 (holds_archive gunzip) files l' -> Forall2 (fun i a => In a l /\ holds_archive gunzip i a) files l').
    { clear H. intros l' Hin H. induction H; constructor; [split; [apply Hin; left; reflexivity|assumption]|apply IHForall2; intros; apply Hin; right; assumption]. }
    apply X; [auto|exact H].
Qed.

(** ** C47 *)
Theorem C47_selects_exactly_the_matching_records : forall gunzip http_gz search (opt : fopt) (invert : bool) (files : list input) (l : list archive),
  opt <> FHttpType -> Forall2 (holds_archive gunzip) files l ->
  warcfilter gunzip http_gz search opt invert files =
  (Ret tt, concat (map (as_written opt) (filter (selected search opt invert) (records l)))).
Proof. intros gunzip hg search opt invert files l Ho H. apply over_archives; [|exact H]. intros a _. apply filter_iterates, Ho. Qed.
(** with and without -i: two parts that make up the whole archive *)
Lemma filter_split {A} (p : A -> bool) l : Permutation (filter p l ++ filter (fun x => negb (p x)) l) l.
Proof.
  induction l as [|x l IH]; [constructor|]. cbn [filter]. destruct (p x); cbn [negb app].
  - constructor. exact IH.
  - eapply Permutation_trans; [apply Permutation_sym, Permutation_middle|]. constructor. exact IH.
Qed.
Theorem C47_inversion_partitions : forall gunzip http_gz search (opt : fopt) (files : list input) (l : list archive),
  opt <> FHttpType -> Forall2 (holds_archive gunzip) files l ->
  exists chosen rest,
    warcfilter gunzip http_gz search opt false files = (Ret tt, concat (map (as_written opt) chosen)) /\
    warcfilter gunzip http_gz search opt true files = (Ret tt, concat (map (as_written opt) rest)) /\
    Permutation (chosen ++ rest) (records l) /\
    Forall (fun w => matches search opt w = true) chosen /\ Forall (fun w => matches search opt w = false) rest.
Proof.
  intros gunzip hg search opt files l Ho H.
  exists (filter (matches search opt) (records l)), (filter (fun w => negb (matches search opt w)) (records l)).
  split; [|split; [|split; [|split]]].
  - rewrite (C47_selects_exactly_the_matching_records gunzip hg search opt false files l Ho H). rewrite (filter_ext (selected search opt false) (matches search opt)); [reflexivity|].
    intro w. unfold selected. apply xorb_false_r.
  - rewrite (C47_selects_exactly_the_matching_records gunzip hg search opt true files l Ho H). rewrite (filter_ext (selected search opt true) (fun w => negb (matches search opt w))); [reflexivity|].
    intro w. unfold selected. apply xorb_true_r.
  - apply filter_split.
  - apply Forall_forall. intros w Hw. apply filter_In in Hw. apply Hw.
  - apply Forall_forall. intros w Hw. apply filter_In in Hw as [_ Hw]. apply negb_true_iff, Hw.
Qed.

(** -H: the media type of the HTTP response in the record *)
(** the media type announced by a whole HTTP response; [None]: it is not one *)
Definition before_semicolon (v : bytes) : bytes := hd [] (split_all 59%N v).
Definition media_type (http_gz : bytes -> outcome bytes) (body : bytes) (mime : option bytes) : Prop :=
  exists m, Http.feed http_gz (Http.new_response [] []) body = Ret (m, []) /\ Http.complete (Http.close m) = true /\
    mime = option_map before_semicolon (first_header (B "Content-Type") (Http.h_headers (Http.m_head m))).
Definition http_record (w : wrec) : bool :=
  is_some_eq (header_of "WARC-Type" w) (B "response") &&
  match header_of "Content-Type" w with Some ct => startswith (B "application/http") ct | None => false end.
Lemma mime_of_first hs : mime_of hs = option_map before_semicolon (first_header (B "Content-Type") hs).
Proof.
  unfold mime_of. induction hs as [|[n v] hs IH]; [reflexivity|]. cbn [filter first_header fst].
  unfold same_nameb. change (lower (B "Content-Type")) with (B "content-type").
  destruct (bytes_eqb (lower n) (B "content-type")) eqn:E; [reflexivity|exact IH].
Qed.
Lemma http_mime_media hg body mime : media_type hg body mime -> http_mime hg body = Ret mime.
Proof.
  intros (m & E & Hc & ->). unfold http_mime. rewrite E. cbn [bind]. rewrite Hc, mime_of_first, close_head. reflexivity.
Qed.
(** every response record has a content type, and if that is an HTTP one, a whole message *)
Definition http_clean (http_gz : bytes -> outcome bytes) (mime : wrec -> option bytes) (w : wrec) : Prop :=
  is_response w -> header_of "Content-Type" w <> None /\ (http_record w = true -> media_type http_gz (w_body w) (mime w)).
Lemma http_iterates hg search invert mime a : Forall (fun p => http_clean hg mime (fst p)) a ->
  iterates (filter_record hg search FHttpType invert)
    (add_if (fun w => http_record w && xorb (found_in search (mime w)) invert) (fun w => canonical (from_memory w))) a.
Proof.
  intros Hc s st w sep after Hin Hi. rewrite Forall_forall in Hc. specialize (Hc _ Hin). cbn [fst] in Hc. unfold add_if. cbn [filter_record].
  rewrite rec_type_handed. unfold http_record. change (header_of "WARC-Type" w) with (first_header (B "WARC-Type") (w_headers w)). change V_RESPONSE with (B "response").
  destruct (is_some_eq (first_header (B "WARC-Type") (w_headers w)) (B "response")) eqn:Et.
  2: { eexists. split; [reflexivity|eapply used_refl; exact Hi]. }
  pose proof Et as Et'. apply is_some_eq_iff in Et'. destruct (Hc Et') as [Hct Hm].
  unfold rec_content_type. cbn [handed parsed_rec r_content]. change (parsed_rec (w_version w) (w_headers w) []) with (handed w).
  rewrite ct_handed. cbn [andb]. change (header_of "Content-Type" w) with (ctype w) in *. destruct (ctype w) as [ct|] eqn:Ec; [|congruence].
  change APPLICATION_HTTP with (B "application/http"). destruct (startswith (B "application/http") ct) eqn:Es.
  2: { eexists. split; [reflexivity|eapply used_refl; exact Hi]. }
  destruct (content_handed w st after Hi) as (r' & E & H1 & H2 & H3 & H4). rewrite E.
  rewrite (http_mime_media hg _ _ (Hm ltac:(unfold http_record; change (header_of "WARC-Type" w) with (first_header (B "WARC-Type") (w_headers w)); change (header_of "Content-Type" w) with (ctype w); rewrite Et, Ec; exact Es))).
  rewrite opt_search_found, (emit_if_memory _ s _ r' w H1 H2 H3 H4). cbn [andb]. eexists. split; [reflexivity|apply used_all].
Qed.
Theorem C47_http_media_type : forall gunzip http_gz search (invert : bool) (files : list input) (l : list archive) (mime : wrec -> option bytes),
  Forall2 (holds_archive gunzip) files l -> Forall (http_clean http_gz mime) (records l) ->
  warcfilter gunzip http_gz search FHttpType invert files =
  (Ret tt, concat (map (fun w => canonical (from_memory w))
                       (filter (fun w => http_record w && xorb (found_in search (mime w)) invert) (records l)))).
Proof.
  intros gunzip hg search invert files l mime H Hc. apply over_archives; [|exact H]. intros a Ha. apply http_iterates.
  apply Forall_forall. intros [w s] Hin. cbn [fst]. rewrite Forall_forall in Hc. apply Hc. unfold records. apply in_concat. exists (map fst a). split; apply in_map_iff; [eauto|exists (w, s); auto].
Qed.
(** the first response record without a content type, or whose HTTP message is cut short
    or followed by other bytes, ends the run with an exception *)
Theorem C47_http_failures : forall gunzip http_gz search (invert : bool)
    (files others : list input) (l : list archive) (i : input) (a b : archive) (w : wrec) (sep : bytes) (mime : wrec -> option bytes),
  Forall2 (holds_archive gunzip) files l -> Forall (http_clean http_gz mime) (records l ++ map fst a) ->
  holds_archive gunzip i (a ++ (w, sep) :: b) -> is_response w ->
  (header_of "Content-Type" w = None \/ (http_record w = true /\ partial_response http_gz (w_body w))) ->
  warcfilter gunzip http_gz search FHttpType invert (files ++ i :: others) =
  (Raise (match header_of "Content-Type" w with None => EAttributeError | Some _ => ENameError end),
   concat (map (fun w => canonical (from_memory w))
                       (filter (fun w => http_record w && xorb (found_in search (mime w)) invert) (records l ++ map fst a)))).
Proof.
  intros gunzip hg search invert files others l i a b w sep mime Hf Hc Hi Hr Hw. apply Forall_app in Hc as [Hc Hca].
  pose proof (C47_http_media_type gunzip hg search invert files l mime Hf Hc) as E. unfold warcfilter in *.
  rewrite (over_files_app gunzip _ _ _ _ _ E). cbn [over_files]. destruct Hi as [Hok Hi]. destruct (open_holds _ _ _ Hi) as (st & Eo & Hat & Hp & Hk). rewrite Eo.
  apply Forall_app in Hok as [Hoka Hokb]. inversion Hokb as [|? ? [Hww _] _]; subst. cbn [fst] in Hww. unfold each_record.
  destruct (for_records_raises (filter_record hg search FHttpType invert) (add_if (fun w => http_record w && xorb (found_in search (mime w)) invert) (fun w => canonical (from_memory w))) a w sep b
     (match header_of "Content-Type" w with None => EAttributeError | Some _ => ENameError end) (fun s => s)
     (concat (map (fun w => canonical (from_memory w)) (filter (fun w => http_record w && xorb (found_in search (mime w)) invert) (records l)))) st 0) as [st' E2]; try assumption.
  - apply http_iterates. rewrite Forall_map in Hca. exact Hca.
  - intros s st0 after Hin. cbn [filter_record]. rewrite rec_type_handed, Hr. change (is_some_eq (Some (B "response")) V_RESPONSE) with true. cbn iota.
    unfold rec_content_type. cbn [handed parsed_rec r_content]. change (parsed_rec (w_version w) (w_headers w) []) with (handed w).
    rewrite ct_handed. destruct (content_handed w st0 after Hin) as (r' & E3 & H1 & H2 & H3 & H4). unfold http_record in Hw. change (header_of "Content-Type" w) with (ctype w) in *.
    destruct (ctype w) as [ct|] eqn:Ec.
    + destruct Hw as [Hw|[Hw (m & more & Em & Hm)]]; [discriminate|]. apply andb_true_iff in Hw as [_ Hw]. change APPLICATION_HTTP with (B "application/http"). rewrite Hw, E3.
      unfold http_mime. rewrite Em. cbn [bind]. destruct more as [|c t]; [|eauto]. destruct Hm as [Hm|Hm]; [contradiction|]. rewrite Hm. eauto.
    + rewrite E3. cbn [omap fst]. eauto.
  - rewrite E2, fold_add_if, filter_app, map_app, concat_app. reflexivity.
Qed.
