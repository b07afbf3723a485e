(** C01 - C07: reading and writing intact and truncated WARC archives. *)
From Verif Require Export Checks.
From Coq Require Import String List.
Open Scope list_scope.

Lemma opened_at text st x : opened_on text st -> text = x -> at_text st 0 x /\ s_parser st = PWarc /\ s_kind st = SPlain.
Proof.
  intros [s ->] <-. split; [|split; reflexivity]. left. split; [reflexivity|]. exists [].
  split; [reflexivity|]. split; [split; [intros c []|left; reflexivity]|reflexivity].
Qed.
Lemma source_written x gz st : exists r', write_to gz CRLF (source_record x) st =
  (Ret tt, r', st, let d := wrec_text (source_wrec x) ++ terminator in match gz with None => d | Some deflate => deflate d end).
Proof.
  destruct x as [v hs ct body|v hs rd]; cbn [source_record source_wrec].
  - eexists. apply (write_tuple gz v hs ct body st).
  - destruct (write_own gz v hs [] rd st) as [rd' E]. eexists. rewrite E. unfold wrec_text. cbn [w_version w_headers w_body].
    cbn zeta. rewrite <- app_assoc. reflexivity.
Qed.
Lemma write_all_text gz l st : write_all gz (map source_record l) st =
  (Ret tt, concat (map (fun x => let d := wrec_text (source_wrec x) ++ terminator in match gz with None => d | Some f => f d end) l)).
Proof.
  induction l as [|x l IH]; [reflexivity|]. cbn [map write_all concat].
  destruct (source_written x gz st) as [r' E]. rewrite E. rewrite IH. reflexivity.
Qed.
Lemma written_text l : archive_text (written l) = concat (map (fun x => wrec_text (source_wrec x) ++ terminator) l).
Proof. unfold archive_text, written. rewrite map_map. reflexivity. Qed.
Lemma source_wrec_ok x : source_ok x -> wrec_ok (source_wrec x).
Proof. destruct x as [v hs ct body|v hs rd]; [|exact (fun H => H)]. intros (H1 & H2 & H3 & H4). apply tuple_wrec_ok; assumption. Qed.
Lemma written_ok l : Forall source_ok l -> archive_ok (written l).
Proof.
  intro H. apply Forall_forall. intros [w s] Hi. unfold written in Hi. apply in_map_iff in Hi as (x & E & Hi).
  injection E as <- <-. split; [|apply terminator_ok]. apply source_wrec_ok. rewrite Forall_forall in H. auto.
Qed.
Lemma item_offset_plain b n : item_offset SPlain b n = if b then Some n else None.
Proof. reflexivity. Qed.

(** reading any well-formed archive (C02, C06) *)
Theorem C06_any_newline_separator : forall (lead : bytes) (a : archive) (st : stream),
  archive_ok a -> sep_ok lead -> opened_on (lead ++ archive_text a) st ->
  exists st', for_read_records None true look [] st =
    (Ret tt, seen_archive Some (List.length lead) a, st').
Proof.
  intros lead a st Hok Hs [strict ->].
  assert (Hat : at_text (new_stream SPlain (mkfile (lead ++ archive_text a) 0 strict) PWarc) (List.length lead) (archive_text a)).
  { left. split; [reflexivity|]. exists lead. split; [reflexivity|]. split; [exact Hs|reflexivity]. }
  destruct (for_read_records_archive look look_step look_fin a None true [] _ _ (look_visits a) Hok Hat eq_refl) as [st' E]; [discriminate|].
  exists st'. rewrite E, visit_look, look_list_all. reflexivity.
Qed.

Lemma read_archive_plain a st : archive_ok a -> opened_on (archive_text a) st ->
  (exists st', for_read_records None true look [] st = (Ret tt, seen_archive Some 0 a, st')) /\
  (forall n, exists st', for_read_records (Some n) true look [] st = (Ret tt, firstn n (seen_archive Some 0 a), st')) /\
  (exists st', for_records look_rec [] st = (Ret tt, map (fun p => seen_record None (fst p)) a, st')).
Proof.
  intros Hok Ho. destruct (opened_at _ _ _ Ho eq_refl) as (Hat & Hp & Hk).
  assert (Hk' : s_kind st <> SGzipFile) by (rewrite Hk; discriminate).
  split; [|split].
  - destruct (for_read_records_archive look look_step look_fin a None true [] st 0 (look_visits a) Hok Hat Hp Hk') as [st' E].
    exists st'. rewrite E, visit_look, look_list_all, Hk. reflexivity.
  - intro n. destruct (for_read_records_archive look look_step look_fin a (Some n) true [] st 0 (look_visits a) Hok Hat Hp Hk') as [st' E].
    exists st'. rewrite E, visit_look, look_list_some, Hk. reflexivity.
  - destruct (for_records_archive look_rec (fun acc w => acc ++ [seen_record None w]) a [] st 0) as [st' E]; try assumption.
    + intros s st0 w sep after Hin Hi. destruct (look_visits a) as [Hv _].
      destruct (Hv s st0 w sep after None Hin Hi) as (st1 & E & Hu). exists st1. unfold look_rec. rewrite E. split; [reflexivity|exact Hu].
    + exists st'. rewrite E. f_equal. f_equal.
      assert (G : forall l acc, fold_left (fun acc w => acc ++ [seen_record None w]) l acc = acc ++ map (seen_record None) l).
      { clear. induction l as [|w l IH]; intro acc; cbn [fold_left map]; [rewrite app_nil_r; reflexivity|].
        rewrite IH, <- app_assoc. reflexivity. }
      rewrite G, map_map. reflexivity.
Qed.

Theorem C02_archive_survives_write_then_read : forall (l : list source) (st0 : stream),
  Forall source_ok l ->
  exists text, write_all None (map source_record l) st0 = (Ret tt, text) /\
  forall st, opened_on text st ->
    (exists st', for_read_records None true look [] st = (Ret tt, seen_archive Some 0 (written l), st')) /\
    (forall n, exists st', for_read_records (Some n) true look [] st =
                 (Ret tt, firstn n (seen_archive Some 0 (written l)), st')) /\
    (exists st', for_records look_rec [] st =
       (Ret tt, map (fun x => seen_record None (source_wrec x)) l, st')).
Proof.
  intros l st0 Hl. eexists. split; [apply write_all_text|]. cbn zeta iota. rewrite <- written_text. intros st Ho.
  destruct (read_archive_plain _ st (written_ok l Hl) Ho) as (H1 & H2 & H3). split; [exact H1|]. split; [exact H2|].
  destruct H3 as [st' E]. exists st'. rewrite E. unfold written. rewrite map_map. reflexivity.
Qed.

Theorem C01_record_survives_write_then_read :
  forall (v : bytes) (hs : list header) (ct : option bytes) (body : bytes) (st0 : stream),
  In v versions -> Forall header_ok hs ->
  Forall (fun h => supplied_by_content h = false -> header_clean h) hs ->
  (match ct with Some c => value_ok c | None => True end) ->
  let r := new_warc v hs (Some (ct, Some body)) [] CF_none in
  exists r' st0' text, write_to None CRLF r st0 = (Ret tt, r', st0', text) /\
  forall st, opened_on text st -> exists st',
    for_read_records None true look [] st =
    (Ret tt,
     [Seen (Some 0) v (tuple_headers hs ct body) []
           (first_header (B "Content-Type") (tuple_headers hs ct body)) body;
      SeenEnd (Some (List.length text)) []], st').
Proof.
  intros v hs ct body st0 H1 H2 H3 H4. cbn zeta. do 3 eexists. split; [apply (write_tuple None v hs ct body st0)|].
  cbn zeta iota. intros st Ho.
  assert (Hw : wrec_ok (tuple_wrec v hs ct body)) by (apply tuple_wrec_ok; assumption).
  assert (Ht : wrec_text (tuple_wrec v hs ct body) ++ terminator = archive_text [(tuple_wrec v hs ct body, terminator)]).
  { rewrite archive_text_cons. change (archive_text []) with (@nil N). rewrite (app_nil_r terminator). reflexivity. }
  rewrite Ht in Ho. destruct (read_archive_plain [(tuple_wrec v hs ct body, terminator)] st) as ((st' & E) & _).
  - constructor; [split; [exact Hw|apply terminator_ok]|constructor].
  - exact Ho.
  - exists st'. rewrite E. cbn [seen_archive]. rewrite app_length. reflexivity.
Qed.
(** the content type read back is the one given, unless a header with another
    spelling of Content-Type comes first *)
Theorem C01_content_type_survives : forall hs ct body,
  Forall (fun h => supplied_by_content h = false -> ~ same_name (fst h) (B "Content-Type")) hs ->
  first_header (B "Content-Type") (tuple_headers hs ct body) =
  match ct with Some (c :: t) => Some (c :: t) | _ => None end.
Proof.
  intros hs ct body H. unfold tuple_headers.
  induction hs as [|h hs IH]; cbn [filter app].
  - destruct ct as [[|c t]|]; reflexivity.
  - inversion H as [|? ? Hh Hhs]; subst. destruct (supplied_by_content h) eqn:E; cbn [negb]; [apply IH; exact Hhs|].
    cbn [app first_header]. destruct h as [n v]. cbn [fst] in *.
    assert (En : same_nameb n (B "Content-Type") = false) by (apply bytes_eqb_neq, Hh; reflexivity).
    rewrite En. apply IH. exact Hhs.
Qed.

(** ** C03: offsets *)
Lemma start_of_S w s a i : start_of ((w, s) :: a) (S i) = List.length (wrec_text w) + List.length s + start_of a i.
Proof. unfold start_of. cbn [firstn]. rewrite archive_text_cons, !app_length. lia. Qed.
Lemma seen_nth a : forall i start w s, nth_error a i = Some (w, s) ->
  nth_error (seen_archive Some start a) i = Some (seen_record (Some (start + start_of a i)) w).
Proof.
  induction a as [|[w0 s0] a IH]; intros [|i] start w s H; try discriminate.
  - injection H as -> ->. cbn [nth_error seen_archive]. unfold start_of. cbn. rewrite Nat.add_0_r. reflexivity.
  - cbn [nth_error seen_archive] in *. rewrite (IH _ _ _ _ H), start_of_S. do 3 f_equal. lia.
Qed.
Lemma seen_last a : forall start, nth_error (seen_archive Some start a) (List.length a) =
  Some (SeenEnd (Some (start + List.length (archive_text a))) []).
Proof.
  induction a as [|[w0 s0] a IH]; intro start; [cbn; rewrite Nat.add_0_r; reflexivity|].
  cbn [List.length nth_error seen_archive]. rewrite IH, archive_text_cons, !app_length. do 3 f_equal. lia.
Qed.
Lemma archive_skip a : forall i, skipn (start_of a i) (archive_text a) = archive_text (skipn i a).
Proof.
  intro i. unfold start_of. assert (E : archive_text a = archive_text (firstn i a) ++ archive_text (skipn i a)).
  { unfold archive_text. rewrite <- concat_app, <- map_app, firstn_skipn. reflexivity. }
  rewrite E. rewrite skipn_app, skipn_all, Nat.sub_diag. reflexivity.
Qed.
Lemma nth_skip {A} (l : list A) : forall i x, nth_error l i = Some x -> skipn i l = x :: skipn (S i) l.
Proof. induction l as [|y l IH]; intros [|i] x H; try discriminate; [injection H as ->; reflexivity|]. cbn [nth_error] in H. apply (IH _ _ H). Qed.
Lemma archive_at a i w s : nth_error a i = Some (w, s) ->
  skipn (start_of a i) (archive_text a) = wrec_text w ++ s ++ archive_text (skipn (S i) a).
Proof. intro H. rewrite archive_skip, (nth_skip _ _ _ H), archive_text_cons. reflexivity. Qed.

Theorem C03_offsets_exact : forall (a : archive) (st : stream) (i : nat) (w : wrec) (s : bytes),
  archive_ok a -> opened_on (archive_text a) st -> nth_error a i = Some (w, s) ->
  exists seen st' off, for_read_records None true look [] st = (Ret tt, seen, st') /\
    List.length seen = S (List.length a) /\
    nth_error seen i = Some (seen_record (Some off) w) /\
    (exists x, skipn off (archive_text a) = w_version w ++ CRLF ++ x) /\
    off = start_of a i /\
    nth_error seen (List.length a) = Some (SeenEnd (Some (List.length (archive_text a))) []).
Proof.
  intros a st i w s Hok Ho Hn. destruct (read_archive_plain a st Hok Ho) as ((st' & E) & _).
  exists (seen_archive Some 0 a), st', (start_of a i). split; [exact E|]. split; [|split; [|split; [|split; [reflexivity|apply seen_last]]]].
  - clear. generalize 0. induction a as [|[w s] a IH]; intro n; [reflexivity|]. cbn [seen_archive List.length]. rewrite IH. reflexivity.
  - rewrite (seen_nth a i 0 w s Hn). reflexivity.
  - rewrite (archive_at a i w s Hn). unfold wrec_text, head_text. rewrite <- !app_assoc. eauto.
Qed.

Theorem C03_seek_to_offset : forall (a : archive) (st : stream) (i : nat) (w : wrec) (s : bytes),
  archive_ok a -> f_data (s_fh st) = archive_text a -> s_kind st = SPlain -> s_parser st = PWarc ->
  (s_eoc st = None \/ s_eoc st = Some 0%Z) -> nth_error a i = Some (w, s) ->
  exists st1 st2, stream_seek st (Z.of_nat (start_of a i)) = (Ret tt, st1) /\
    for_read_records (Some 1) true look [] st1 = (Ret tt, [seen_record (Some (start_of a i)) w], st2).
Proof.
  intros a st i w s Hok Hd Hk Hp He Hn. unfold stream_seek, f_seek.
  assert (Hneg : (Z.of_nat (start_of a i) <? 0)%Z = false) by lia. rewrite Hneg, Nat2Z.id.
  set (st1 := set_fh st (mkfile (f_data (s_fh st)) (start_of a i) (f_strict (s_fh st)))).
  assert (Hr : rest st1 = archive_text ((w, s) :: skipn (S i) a)).
  { change (skipn (start_of a i) (f_data (s_fh st)) = archive_text ((w, s) :: skipn (S i) a)). rewrite Hd, (archive_at a i w s Hn), archive_text_cons. reflexivity. }
  assert (Hat : at_text st1 (start_of a i) (archive_text ((w, s) :: skipn (S i) a))).
  { destruct He as [He|He].
    - left. split; [exact He|]. exists []. split; [exact Hr|]. split; [split; [intros c []|auto]|]. cbn. lia.
    - right. exists [], []. split; [split; [exact He|exact Hr]|]. split; [split; [intros c []|auto]|]. cbn. lia. }
  assert (Hok' : archive_ok ((w, s) :: skipn (S i) a)).
  { rewrite <- (nth_skip _ _ _ Hn). rewrite <- (firstn_skipn i a) in Hok. apply Forall_app in Hok. apply Hok. }
  destruct (for_read_records_archive look look_step look_fin _ (Some 1) true [] st1 _ (look_visits _) Hok' Hat Hp) as [st2 E];
    [cbn; rewrite Hk; discriminate|].
  exists st1, st2. split; [reflexivity|]. rewrite E, visit_look, look_list_some. change (s_kind st1) with (s_kind st). rewrite Hk. reflexivity.
Qed.
(** a seek does not forget the current record: its unread payload length is
    still skipped, so in the middle of a record seeking goes wrong *)
Definition two_records : archive :=
  [(mkw (B "WARC/1.0") [(B "Content-Length", B "3")] (B "abc"), terminator);
   (mkw (B "WARC/1.0") [(B "Content-Length", B "0")] [], terminator)].
Theorem C03_seek_inside_a_record_refuted :
  exists (a : archive) (st st1 st2 : stream),
    archive_ok a /\ opened_on (archive_text a) st /\
    snd (read_record st true) = st1 /\ stream_seek st1 0 = (Ret tt, st2) /\
    fst (read_record st2 true) <> fst (read_record st true).
Proof.
  exists two_records, (new_stream SPlain (mkfile (archive_text two_records) 0 true) PWarc).
  do 2 eexists. split; [apply archive_okb_sound; vm_compute; reflexivity|].
  split; [eexists; reflexivity|]. split; [reflexivity|]. split; [reflexivity|]. vm_compute. discriminate.
Qed.

(** ** C04, C05: reading inside records *)
Lemma limit_ok_nonneg o : limit_ok o <-> cop_nonneg o.
Proof. destruct o as [[n|]|[n|]]; cbn; tauto. Qed.
Lemma piece_eq o left : piece o left = cop_result o left.
Proof. destruct o as [[n|]|[n|]]; reflexivity. Qed.
Lemma pieces_eq ops : forall left, pieces ops left = fst (cops_results ops left).
Proof.
  induction ops as [|o ops IH]; intro left; [reflexivity|]. cbn [pieces cops_results]. rewrite piece_eq.
  specialize (IH (skipn (List.length (cop_result o left)) left)).
  destruct (cops_results ops _) as [ds l]. cbn [fst] in *. rewrite IH. reflexivity.
Qed.
Lemma limits_nonneg ops : Forall limit_ok ops -> Forall cop_nonneg ops.
Proof. apply Forall_impl. intro o. apply limit_ok_nonneg. Qed.
Lemma run_cops_pieces st left after ops : in_payload st left after -> Forall limit_ok ops ->
  exists st', run_cops st ops = (Ret (pieces ops left), st') /\ used st (List.length left) st'.
Proof.
  intros Hi Ho. apply limits_nonneg in Ho. destruct (run_cops_ok ops st left after Hi Ho) as (l & E & _).
  exists (snd (run_cops st ops)). split; [rewrite E, pieces_eq; reflexivity|]. apply (used_cops _ _ after); assumption.
Qed.

Lemma session_archive a : forall uses st start,
  archive_ok a -> at_text st start (archive_text a) -> s_parser st = PWarc -> s_kind st = SPlain ->
  Forall (Forall limit_ok) uses -> List.length uses <= List.length a ->
  exists st', session true uses st =
    (Ret (combine (items_from start a) (map (fun p => pieces (snd p) (w_body (fst (fst p)))) (combine a uses))), st').
Proof.
  induction a as [|[w sep] a IH]; intros [|ops uses] st start Hok Hat Hp Hk Hu Hl; try (eexists; reflexivity).
  - simpl in Hl; lia.
  - inversion Hok as [|? ? [Hw Hsep] Hok']; subst. inversion Hu as [|? ? Hops Hus]; subst. cbn [fst snd] in Hw, Hsep.
    cbn [session]. destruct (read_first st start w sep a true Hat Hp) as (st1 & E & Hi & Hk1 & Hp1 & Hf1 & Hpos1);
      [rewrite Hk; discriminate|exact Hw|]. rewrite E.
    destruct (run_cops_pieces st1 _ _ ops Hi Hops) as (st2 & E2 & Hus2). rewrite E2.
    destruct (used_payload _ _ _ _ Hi Hus2) as (l & _ & Hp2 & Hk2 & _).
    destruct (IH uses st2 (start + List.length (wrec_text w) + List.length sep)) as [st3 E3]; try assumption.
    + apply (at_text_next st1 (w_body w) st2 sep); try assumption. lia.
    + congruence.
    + congruence.
    + simpl in Hl. lia.
    + exists st3. rewrite E3, Hk. reflexivity.
Qed.

(** C04: every sequence of reads returns consecutive pieces of the payload *)
Theorem C04_reads_stay_inside : forall (a : archive) (uses : list (list cop)) (st : stream),
  archive_ok a -> opened_on (archive_text a) st ->
  Forall (Forall limit_ok) uses -> List.length uses <= List.length a ->
  exists got st', session true uses st = (Ret got, st') /\
    map snd got = map (fun p => pieces (snd p) (w_body (fst (fst p)))) (combine a uses).
Proof.
  intros a uses st Hok Ho Hu Hl. destruct (opened_at _ _ _ Ho eq_refl) as (Hat & Hp & Hk).
  destruct (session_archive a uses st 0 Hok Hat Hp Hk Hu Hl) as [st' E]. do 2 eexists. split; [exact E|].
  assert (G : forall A C (l : list A) (m : list C), List.length m <= List.length l -> map snd (combine l m) = m).
  { clear. intros A C. induction l as [|x l IH]; intros [|y m] H; try reflexivity; [simpl in H; lia|]. cbn [combine map snd]. f_equal. apply IH. simpl in H; lia. }
  apply G. rewrite map_length, combine_length.
  assert (Hi : forall s a, List.length (items_from s a) = S (List.length a)).
  { clear. intros s a; revert s; induction a as [|[w x] a IH]; intro s; [reflexivity|]. cbn [items_from List.length]. rewrite IH. reflexivity. }
  rewrite Hi. lia.
Qed.
(** consecutive: they add up to a prefix, and nothing comes after the end *)
Theorem C04_pieces_are_a_prefix : forall (ops : list cop) (payload : bytes),
  Forall limit_ok ops -> exists left, payload = concat (pieces ops payload) ++ left.
Proof.
  intros ops. induction ops as [|o ops IH]; intros left H; [exists left; reflexivity|].
  inversion H as [|? ? Ho Hops]; subst. cbn [pieces concat].
  destruct (cop_result_prefix o left) as [l1 E1]. rewrite <- piece_eq in E1.
  assert (Esk : skipn (List.length (piece o left)) left = l1).
  { generalize dependent (piece o left). intros d ->. rewrite skipn_app, skipn_all, Nat.sub_diag. reflexivity. }
  rewrite Esk. destruct (IH l1 Hops) as [l2 E2]. exists l2. rewrite E1 at 1. rewrite E2 at 1. rewrite <- app_assoc. reflexivity.
Qed.
Theorem C04_nothing_after_the_end : forall (before after : list cop) (payload : bytes),
  Forall limit_ok (before ++ after) -> concat (pieces before payload) = payload ->
  pieces (before ++ after) payload = pieces before payload ++ map (fun _ => []) after.
Proof.
  intros before. induction before as [|o before IH]; intros after payload H E.
  - cbn in E. subst payload. cbn [app]. clear. induction after as [|o after IH]; [reflexivity|]. cbn [pieces map app].
    destruct o as [[n|]|[n|]]; cbn [piece take_line skipn List.length]; rewrite ?firstn_nil, ?skipn_nil; cbn [List.length skipn]; rewrite IH; reflexivity.
  - inversion H as [|? ? Ho Hops]; subst. cbn [pieces app concat] in *. f_equal. apply IH; [exact Hops|].
    destruct (cop_result_prefix o payload) as [l1 E1]. rewrite <- piece_eq in E1.
    generalize dependent (piece o payload). intros d Ed E1. rewrite E1 in Ed. rewrite E1 at 1.
    assert (Esk : skipn (List.length d) payload = l1) by (rewrite E1, skipn_app, skipn_all, Nat.sub_diag; reflexivity).
    assert (Esk' : skipn (List.length d) (d ++ l1) = l1) by (rewrite skipn_app, skipn_all, Nat.sub_diag; reflexivity).
    rewrite Esk' in *. apply app_inv_head in Ed. rewrite Esk || idtac; first [exact Ed | rewrite Ed; reflexivity | (rewrite Ed; symmetry; exact Esk)].
Qed.

(** C05: the records and offsets do not depend on what was consumed *)
Theorem C05_consumption_never_disturbs : forall (a : archive) (uses : list (list cop)) (st : stream),
  archive_ok a -> opened_on (archive_text a) st ->
  Forall (Forall limit_ok) uses -> List.length uses <= List.length a ->
  exists got st', session true uses st = (Ret got, st') /\
    map fst got = firstn (List.length uses) (items_from 0 a).
Proof.
  intros a uses st Hok Ho Hu Hl. destruct (opened_at _ _ _ Ho eq_refl) as (Hat & Hp & Hk).
  destruct (session_archive a uses st 0 Hok Hat Hp Hk Hu Hl) as [st' E]. do 2 eexists. split; [exact E|].
  assert (G : forall A C (l : list A) (m : list C), List.length m <= List.length l -> map fst (combine l m) = firstn (List.length m) l).
  { clear. intros A C. induction l as [|x l IH]; intros [|y m] H; try reflexivity. cbn [combine map fst List.length firstn]. f_equal. apply IH. simpl in H; lia. }
  assert (Hi : forall s a, List.length (items_from s a) = S (List.length a)).
  { clear. intros s a; revert s; induction a as [|[w x] a IH]; intro s; [reflexivity|]. cbn [items_from List.length]. rewrite IH. reflexivity. }
  rewrite G; [|rewrite map_length, combine_length, Hi; lia].
  rewrite map_length, combine_length. f_equal. lia.
Qed.
(** ... for any stream in the middle of a record, whatever was read before *)
Theorem C05_next_record_unaffected : forall (st : stream) (ops : list cop) (left after : bytes) (b : bool),
  s_eoc st = Some (Z.of_nat (List.length left)) -> f_rest (s_fh st) = left ++ after ->
  Forall limit_ok ops ->
  fst (read_record (snd (run_cops st ops)) b) = fst (read_record st b).
Proof.
  intros st ops left after b He Hr Ho. assert (Hi : in_payload st left after) by (split; assumption).
  pose proof (used_cops st left after ops Hi (limits_nonneg _ Ho)) as (k & Hk & E). rewrite E.
  rewrite (read_record_skip st b left after He Hr).
  assert (Hi' : in_payload (moved st k (Z.of_nat (List.length left - k))) (skipn k left) after).
  { split; [cbn; rewrite skipn_length; reflexivity|]. change (rest (moved st k ?e)) with (rest (adv st k)).
    rewrite rest_adv. unfold rest. rewrite Hr, skipn_app. replace (k - List.length left) with 0 by lia. reflexivity. }
  destruct Hi' as [He' Hr']. rewrite (read_record_skip _ b _ _ He' Hr'). rewrite skipn_length.
  do 2 f_equal. unfold fresh, moved, adv, set_fh, set_eoc. cbn. rewrite f_advance_advance. do 2 f_equal. lia.
Qed.

(** ** C07: truncated payloads *)
Lemma run_cop_short st e o : s_eoc st = Some (Z.of_nat e) -> List.length (rest st) < e -> limit_ok o ->
  exists d st' e', run_cop st o = (Ret d, st') /\ s_eoc st' = Some (Z.of_nat e') /\ List.length (rest st') < e'.
Proof.
  intros He Hr Ho.
  assert (Hb : forall n, (match n with Some z => (0 <= z)%Z | None => True end) -> exists m, bounded st n = Some (Z.of_nat m) /\ m <= e).
  { intros [z|] Hz; unfold bounded; rewrite He; [exists (Nat.min (Z.to_nat z) e); split; [f_equal|]; lia|exists e; split; [reflexivity|lia]]. }
  assert (Hfin : forall d : bytes, List.length d <= List.length (rest st) -> exists st' e', count_down (adv st (List.length d)) (List.length d) = st' /\
      s_eoc st' = Some (Z.of_nat e') /\ List.length (rest st') < e').
  { intros d Hd. eexists. exists (e - List.length d). split; [reflexivity|]. unfold count_down. rewrite eoc_adv, He. split; [cbn; f_equal; lia|].
    change (rest (set_eoc ?q ?z)) with (rest q). rewrite rest_adv, skipn_length. lia. }
  destruct o as [n|n]; cbn [run_cop].
  - destruct (Hb n) as (m & Em & _); [destruct n; exact Ho|]. unfold stream_read. rewrite Em. cbn [raw_read]. unfold f_read.
    assert (Hneg : (Z.of_nat m <? 0)%Z = false) by lia. rewrite Hneg.
    set (d := firstn _ _). change (set_fh st (f_advance (s_fh st) (List.length d))) with (adv st (List.length d)).
    destruct (Hfin d) as (st' & e' & E & H1 & H2); [unfold d; change (f_rest (s_fh st)) with (rest st); rewrite firstn_length; lia|].
    rewrite E. eauto 6.
  - destruct (Hb n) as (m & Em & _); [destruct n; exact Ho|]. unfold stream_readline. rewrite Em. unfold f_readline_lim.
    assert (Hneg : (Z.of_nat m <? 0)%Z = false) by lia. rewrite Hneg.
    set (d := firstn _ _). change (set_fh st (f_advance (s_fh st) (List.length d))) with (adv st (List.length d)).
    destruct (Hfin d) as (st' & e' & E & H1 & H2).
    { unfold d. rewrite firstn_length. pose proof (take_line_length (f_rest (s_fh st))). change (rest st) with (f_rest (s_fh st)). lia. }
    rewrite E. eauto 6.
Qed.
Lemma run_cops_short ops : forall st e, s_eoc st = Some (Z.of_nat e) -> List.length (rest st) < e -> Forall limit_ok ops ->
  exists ds st' e', run_cops st ops = (Ret ds, st') /\ s_eoc st' = Some (Z.of_nat e') /\ List.length (rest st') < e'.
Proof.
  induction ops as [|o ops IH]; intros st e He Hr Ho; [cbn; eauto 6|]. inversion Ho as [|? ? H1 H2]; subst.
  cbn [run_cops]. destruct (run_cop_short st e o He Hr H1) as (d & st' & e' & -> & He' & Hr').
  destruct (IH st' e' He' Hr' H2) as (ds & st2 & e2 & -> & He2 & Hr2). cbn. eauto 6.
Qed.

(** the last record's payload is cut short after [have] bytes *)
Definition cut_text (a : archive) (w : wrec) (have : nat) : bytes :=
  archive_text a ++ head_text (w_version w) (w_headers w) ++ firstn have (w_body w).
Lemma cut_header st start w x b : at_text st start (head_text (w_version w) (w_headers w) ++ x) ->
  s_parser st = PWarc -> s_kind st <> SGzipFile -> wrec_ok w ->
  exists st1, read_record st b = (Ret (item_offset (s_kind st) b start, Some (handed w), []), st1) /\
    s_eoc st1 = Some (Z.of_nat (List.length (w_body w))) /\ rest st1 = x.
Proof.
  intros Hat Hp Hk (Hv & Ho & Hc & Hl). destruct (at_text_fresh _ _ _ Hat) as (st0 & Heq & He & Hr & Hpos & Hk0 & Hp0 & Hf0).
  rewrite Heq. rewrite (read_head st0 b (w_version w) (w_headers w) x He); [|congruence|congruence|exact Hv|exact Ho|exact Hr].
  rewrite plain_entries_errors by assumption. rewrite Hl, Hk0, Hpos. eexists. split; [reflexivity|]. split; [reflexivity|].
  change (rest (moved st0 ?n ?e)) with (rest (adv st0 n)). apply rest_adv_app. exact Hr.
Qed.
Theorem C07_truncated_payload_detected :
  forall (a : archive) (w : wrec) (have : nat) (uses : list (list cop)) (last : list cop) (st : stream),
  archive_ok a -> wrec_ok w -> have < List.length (w_body w) ->
  opened_on (cut_text a w have) st ->
  Forall (Forall limit_ok) uses -> List.length uses = List.length a -> Forall limit_ok last ->
  exists got ds st1 st2 st3,
    (* the intact records, and the header of the last one, are read as usual *)
    session true uses st = (Ret got, st1) /\ map fst got = firstn (List.length a) (items_from 0 a) /\
    read_record st1 true = (Ret (Some (List.length (archive_text a)), Some (handed w), []), st2) /\
    run_cops st2 last = (Ret ds, st3) /\
    (* the next read raises *)
    fst (read_record st3 true) = Raise E_short.
Proof.
  intros a w have uses last st Hok Hw Hlt Ho Hu Hlen Hlast.
  assert (G : forall a uses st start x, archive_ok a -> at_text st start (archive_text a ++ x) -> s_parser st = PWarc -> s_kind st = SPlain ->
     Forall (Forall limit_ok) uses -> List.length uses = List.length a ->
     exists got st', session true uses st = (Ret got, st') /\ map fst got = firstn (List.length a) (items_from start a) /\
       at_text st' (start + List.length (archive_text a)) x /\ s_parser st' = PWarc /\ s_kind st' = SPlain).
  { clear. induction a as [|[w sep] a IH]; intros [|ops uses] st start x Hok Hat Hp Hk Hu Hl; try discriminate.
    - exists [], st. cbn. rewrite Nat.add_0_r. auto.
    - inversion Hok as [|? ? [Hw Hsep] Hok']; subst. inversion Hu as [|? ? Hops Hus]; subst. cbn [fst snd] in Hw, Hsep.
      cbn [session].
      assert (Hat' : at_text st start (head_text (w_version w) (w_headers w) ++ (w_body w ++ sep ++ archive_text a ++ x))).
      { rewrite archive_text_cons in Hat. unfold wrec_text in Hat. rewrite <- !app_assoc in Hat. exact Hat. }
      destruct (at_text_fresh _ _ _ Hat') as (st0 & Heq & He & Hr & Hpos & Hk0 & Hp0 & Hf0). rewrite Heq.
      destruct (read_wrec st0 true w (sep ++ archive_text a ++ x) He) as [E Hi]; [congruence|rewrite Hk0, Hk; discriminate|exact Hw| |].
      { rewrite Hr. unfold wrec_text. rewrite <- !app_assoc. reflexivity. }
      rewrite E. destruct (run_cops_pieces _ _ _ ops Hi Hops) as (st2 & E2 & Hus2). rewrite E2.
      destruct (used_payload _ _ _ _ Hi Hus2) as (l & _ & Hp2 & Hk2 & _).
      destruct (IH uses st2 (start + List.length (wrec_text w) + List.length sep) x) as (got & st3 & E3 & Hg & Hat3 & Hp3 & Hk3); try assumption.
      + apply (at_text_next _ (w_body w) st2 sep _ _ Hi); try assumption.
        change (pos (moved st0 ?n ?e)) with (pos (adv st0 n)). rewrite pos_adv. unfold wrec_text. rewrite app_length. lia.
      + rewrite Hp2. cbn. congruence.
      + rewrite Hk2. cbn. congruence.
      + simpl in Hl. lia.
      + exists ((Some start, Some (handed w), [], pieces ops (w_body w)) :: got), st3. rewrite E3, Hk0, Hk, Hpos.
        split; [reflexivity|]. split; [cbn [map fst List.length items_from firstn]; rewrite Hg; reflexivity|]. split; [|split; assumption].
        rewrite archive_text_cons, !app_length.
        replace (start + (List.length (wrec_text w) + (List.length sep + List.length (archive_text a))))
          with (start + List.length (wrec_text w) + List.length sep + List.length (archive_text a)) by lia. exact Hat3. }
  destruct (opened_at _ _ _ Ho eq_refl) as (Hat & Hp & Hk).
  destruct (G a uses st 0 _ Hok Hat Hp Hk Hu Hlen) as (got & st1 & E1 & Hg & Hat1 & Hp1 & Hk1).
  destruct (cut_header st1 _ w _ true Hat1 Hp1) as (st2 & E2 & He2 & Hr2); [rewrite Hk1; discriminate|exact Hw|].
  assert (Hlt2 : List.length (rest st2) < List.length (w_body w)) by (rewrite Hr2, firstn_length; lia).
  destruct (run_cops_short last st2 _ He2 Hlt2 Hlast) as (ds & st3 & e3 & E3 & He3 & Hr3).
  destruct (read_record_short st3 true e3 He3 Hr3) as (st4 & E4).
  exists got, ds, st1, st2, st3. rewrite Hk1 in E2. rewrite E4. auto.
Qed.

(** ** The hypotheses are met by non-trivial cases *)
Definition sample_sources : list source :=
  [ FromTuple (B "WARC/1.0")
      [(B "WARC-Type", B "response"); (B "WARC-Target-URI", B "http://a/ b:c"); (B "Content-Length", B "bogus"); (B "X-Empty", [])]
      (Some (B "text/plain")) (B "WARC/1.0" ++ CRLF ++ B "Content-Length: 5" ++ CRLF ++ CRLF ++ [0; 255; 10]%N);
    FromFile (B "WARC/0.18") [(B "content-length", B " 3" ++ []); (B "Content-Length", B "4")] [B "ab"; B "cd"; []; B "zz"];
    FromTuple (B "WARC/0.17") [] None [] ].
(* the second entry has an untidy value; the valid variant: *)
Definition sample_sources_ok : list source :=
  [ nth 0 sample_sources (FromTuple [] [] None []);
    FromFile (B "WARC/0.18") [(B "content-length", B "3"); (B "Content-Length", B "4")] [B "ab"; B "cd"; []; B "zz"];
    nth 2 sample_sources (FromTuple [] [] None []) ].
Example C01_C02_hypotheses_met : Forall source_ok sample_sources_ok.
Proof. apply (forallb_sound source_okb); [exact source_okb_sound|vm_compute; reflexivity]. Qed.
Example C02_sample_run : exists text,
  write_all None (map source_record sample_sources_ok) (new_stream SPlain (mkfile [] 0 true) PWarc) = (Ret tt, text) /\
  fst (for_read_records None true look [] (new_stream SPlain (mkfile text 0 true) PWarc))
  = (Ret tt, seen_archive Some 0 (written sample_sources_ok)) /\
  List.length (seen_archive Some 0 (written sample_sources_ok)) = 4.
Proof. eexists. split; [reflexivity|]. split; vm_compute; reflexivity. Qed.
Definition sample_archive : archive :=
  [ (mkw (B "WARC/1.0") [(B "Content-Length", B "+0_5 ")] (B "WARC/"), [13; 13; 10; 10]%N);
    (mkw (B "WARC/1.0") [(B "A", B "b"); (B "CONTENT-LENGTH", B "3")] [10; 13; 10]%N, []);
    (mkw (B "WARC/0.17") [] [], [10]%N) ].
Definition sample_archive_ok : archive :=
  [ (mkw (B "WARC/1.0") [(B "Content-Length", B "+0_5")] (B "WARC/"), [13; 13; 10; 10]%N);
    (mkw (B "WARC/1.0") [(B "A", B "b"); (B "CONTENT-LENGTH", B "3")] [10; 13; 10]%N, []);
    (mkw (B "WARC/0.17") [] [], [10]%N) ].
Example C03_C06_hypotheses_met : archive_ok sample_archive_ok /\ ~ archive_ok sample_archive /\ sep_ok [13; 10]%N.
Proof.
  split; [apply archive_okb_sound; vm_compute; reflexivity|]. split; [|apply sep_okb_sound; reflexivity].
  intro H. inversion H as [|? ? [(_ & Hh & _) _] _]; subst. inversion Hh as [|? ? [_ [_ Ht]] _]; subst. vm_compute in Ht. discriminate.
Qed.
Example C04_C05_sample_run :
  let st := new_stream SPlain (mkfile (archive_text sample_archive_ok) 0 true) PWarc in
  fst (session true [[OpRead (Some 2%Z); OpReadline None; OpRead None]; [OpReadline None]; []] st) =
  Ret [ (Some 0, Some (handed (fst (nth 0 sample_archive_ok (mkw [] [] [], [])))), [], [B "WA"; B "RC/"; []]);
        (Some 43, Some (handed (fst (nth 1 sample_archive_ok (mkw [] [] [], [])))), [], [[10%N]]);
        (Some 83, Some (handed (fst (nth 2 sample_archive_ok (mkw [] [] [], [])))), [], []) ].
Proof. vm_compute. reflexivity. Qed.
Example C07_hypotheses_met : let w := mkw (B "WARC/1.0") [(B "Content-Length", B "5")] (B "WARC/") in
  wrec_ok w /\ 3 < List.length (w_body w) /\
  exists st, opened_on (cut_text sample_archive_ok w 3) st.
Proof. split; [apply wrec_okb_sound; vm_compute; reflexivity|]. split; [cbn; lia|]. eexists. exists true. reflexivity. Qed.
