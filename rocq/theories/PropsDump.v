(** C62: record.dump and warcdump. *)
From Verif Require Export Checks PropsIter Dump PropsIndex ToolExamples.
From Coq Require Import String List Lia ZArith.
Open Scope list_scope.

(** ** Specification *)
(** text made of lines *)
Definition text_of (lines : list bytes) : bytes := concat (map (fun l => l ++ [LF]) lines).
Definition TAB : N := 9%N.
(** the preview of the content: letters, digits, _ space | \ / and tab are shown as they are,
    every other byte as \x and its number in hexadecimal *)
Definition shown_as_is : bytes :=
  B "abcdefghijklmnopqrstuvwxyzABCDEFGHIJKLMNOPQRSTUVWXYZ0123456789_ |\/" ++ [TAB].
Definition hex_digit (n : N) : N := nth (N.to_nat n) (B "0123456789ABCDEF") 0%N.
Definition hex_number (c : N) : bytes :=
  if N.ltb c 16 then [hex_digit c] else [hex_digit (c / 16)%N; hex_digit (c mod 16)%N].
Definition shown_byte (c : N) : bytes :=
  if in_dec N.eq_dec c shown_as_is then [c] else B "\x" ++ hex_number c.
Definition preview (body : bytes) : bytes := concat (map shown_byte (firstn 1024 body)).
(** the lines printed for a record with content type [ct] *)
Definition header_lines (hs : list header) : list bytes :=
  B "Headers:" :: map (fun h => TAB :: fst h ++ B ":" ++ snd h) hs ++ [B "Content Headers:"].
Definition content_lines (ct body : bytes) : list bytes :=
  [TAB :: B "Content-Type : " ++ ct; TAB :: B "Content-Length : " ++ dec_nat (List.length body);
   B "Content:"; TAB :: preview body; TAB :: B "..."; []].
Definition dump_lines (hs : list header) (ct body : bytes) : list bytes := header_lines hs ++ content_lines ct body.
Definition all_bytes (s : bytes) : Prop := Forall (fun c => (c < 256)%N) s.

(** ** Lemmas *)
Lemma print_text l x : print (text_of l) x = text_of (l ++ [x]).
Proof. unfold print, text_of. rewrite map_app, concat_app. cbn. rewrite app_nil_r. reflexivity. Qed.
Lemma text_of_app a b : text_of (a ++ b) = text_of a ++ text_of b.
Proof. unfold text_of. rewrite map_app, concat_app. reflexivity. Qed.
Lemma print_more out l x : print (out ++ text_of l) x = out ++ text_of (l ++ [x]).
Proof. rewrite <- print_text. unfold print. rewrite !app_assoc. reflexivity. Qed.
Lemma print_first out x : print out x = out ++ text_of [x].
Proof. unfold print, text_of. cbn. rewrite app_nil_r. reflexivity. Qed.
Lemma print_fold {A} (f : A -> bytes) l : forall out, fold_left (fun out x => print out (f x)) l out = out ++ text_of (map f l).
Proof.
  induction l as [|x l IH]; intro out; cbn [fold_left map]; [unfold text_of; cbn; rewrite app_nil_r; reflexivity|].
  rewrite IH, print_first, <- app_assoc. f_equal. change (f x :: map f l) with ([f x] ++ map f l). rewrite text_of_app. reflexivity.
Qed.
Definition byte_list : list N := map N.of_nat (seq 0 256).
Lemma byte_cases (P : N -> bool) : forallb P byte_list = true -> forall c, (c < 256)%N -> P c = true.
Proof.
  intros H c Hc. rewrite forallb_forall in H. apply H. unfold byte_list. apply in_map_iff. exists (N.to_nat c).
  split; [lia|]. apply in_seq. lia.
Qed.
Lemma stripped_spec c : (c < 256)%N -> (if stripped c then [92; 120]%N ++ hex_byte c else [c]) = shown_byte c.
Proof.
  intro Hc. assert (E : bytes_eqb (if stripped c then [92; 120]%N ++ hex_byte c else [c]) (shown_byte c) = true).
  { revert c Hc. apply (byte_cases (fun c => bytes_eqb (if stripped c then [92; 120]%N ++ hex_byte c else [c]) (shown_byte c))). vm_compute. reflexivity. }
  apply bytes_eqb_eq, E.
Qed.
Lemma strip_preview body : all_bytes body -> strip_sub (firstn (Nat.min 1024 (List.length body)) body) = preview body.
Proof.
  intro H. rewrite <- firstn_firstn, firstn_all. unfold strip_sub, preview. f_equal.
  apply map_ext_in. intros c Hc. apply stripped_spec. unfold all_bytes in H. rewrite Forall_forall in H. apply H.
  revert Hc. generalize 1024. intro n. intro Hc. rewrite <- (firstn_skipn n body). apply in_or_app. left. exact Hc.
Qed.
Lemma headers_text out r : dump_headers out r = out ++ text_of (B "Headers:" :: map (fun h => TAB :: fst h ++ B ":" ++ snd h) (r_headers r)).
Proof.
  unfold dump_headers. rewrite (print_fold (fun kv : header => [9%N] ++ fst kv ++ [58%N] ++ snd kv)), print_first, <- app_assoc. f_equal.
Qed.
(** dump of any record whose content is there *)
Lemma dump_text out r st ct body r' st' : rec_content r st = (Ret (Some ct, Some body), r', st') -> all_bytes body -> is_warc r = true ->
  rec_dump true out r st =
  match r_errors r' with
  | [] => (Ret tt, out ++ text_of (dump_lines (r_headers r) ct body), r', st')
  | _ => (Raise ETypeError, out ++ text_of (dump_lines (r_headers r) ct body ++ [B "Errors:"]), r', st')
  end.
Proof.
  intros E Hb Hw. unfold rec_dump. rewrite E, headers_text. rewrite (strip_preview body Hb). unfold ct_name, cl_name. rewrite Hw.
  unfold dump_errors, dump_lines, header_lines, content_lines. rewrite !print_more. cbn [app]. rewrite <- !app_assoc. cbn [app].
  destruct (r_errors r'); reflexivity.
Qed.
Lemma dump_no_type out r st body r' st' : rec_content r st = (Ret (None, body), r', st') ->
  rec_dump true out r st = (Raise EAttributeError, out ++ text_of (header_lines (r_headers r)), r', st').
Proof.
  intro E. unfold rec_dump. rewrite E, headers_text. rewrite print_more. cbn [app]. reflexivity.
Qed.

(** ** the preview *)
(** it is one line of printable ASCII characters and tabs, whatever the content *)
Theorem C62_preview_is_plain_text : forall body c, all_bytes body -> In c (preview body) -> In c shown_as_is.
Proof.
  intros body c Hb Hc. unfold preview in Hc. apply in_concat in Hc as (x & Hx & Hc). apply in_map_iff in Hx as (d & <- & Hd).
  assert (Hd' : (d < 256)%N).
  { unfold all_bytes in Hb. rewrite Forall_forall in Hb. apply Hb. revert Hd. generalize 1024. intros n Hd. rewrite <- (firstn_skipn n body). apply in_or_app. left. exact Hd. }
  assert (E : forallb (fun c => if in_dec N.eq_dec c shown_as_is then true else false) (shown_byte d) = true).
  { revert d Hd' Hd Hc. intros d Hd' _ _. revert d Hd'. apply (byte_cases (fun d => forallb (fun c => if in_dec N.eq_dec c shown_as_is then true else false) (shown_byte d))). vm_compute. reflexivity. }
  rewrite forallb_forall in E. specialize (E c Hc). cbn beta in E. destruct (in_dec N.eq_dec c shown_as_is) as [H|H]; [exact H|discriminate].
Qed.
(** content of plain characters is shown as it is; only the first 1024 bytes are looked
    at; the number of a byte can be read back *)
Theorem C62_preview_of_plain_content : forall body, Forall (fun c => In c shown_as_is) body -> preview body = firstn 1024 body.
Proof.
  intros body H. unfold preview. assert (G : forall l, Forall (fun c => In c shown_as_is) l -> concat (map shown_byte l) = l).
  { induction 1 as [|c l Hc _ IH]; [reflexivity|]. cbn [map concat]. rewrite IH. unfold shown_byte.
    destruct (in_dec N.eq_dec c shown_as_is); [reflexivity|contradiction]. }
  apply G. revert body H. generalize 1024. induction n as [|n IH]; intros body H; [constructor|]. destruct H; cbn [firstn]; [constructor|]. constructor; [assumption|apply IH; assumption].
Qed.
Theorem C62_preview_sees_1024_bytes : forall body more, List.length body = 1024 -> preview (body ++ more) = preview body.
Proof.
  intros body more H. unfold preview. rewrite firstn_app, H, Nat.sub_diag, firstn_O, app_nil_r. reflexivity.
Qed.
Theorem C62_shown_number : forall c, (c < 256)%N -> ~ In c shown_as_is ->
  exists h, shown_byte c = B "\x" ++ h /\ py_int 16 h = Some (Z.of_N c).
Proof.
  intros c Hc Hn. exists (hex_number c). split; [unfold shown_byte; destruct (in_dec N.eq_dec c shown_as_is); [contradiction|reflexivity]|].
  assert (E : (match py_int 16 (hex_number c) with Some z => Z.eqb z (Z.of_N c) | None => false end) = true).
  { revert c Hc Hn. intros c Hc _. revert c Hc. apply (byte_cases (fun c => match py_int 16 (hex_number c) with Some z => Z.eqb z (Z.of_N c) | None => false end)). vm_compute. reflexivity. }
  destruct (py_int 16 (hex_number c)) as [z|]; [|discriminate]. apply Z.eqb_eq in E. congruence.
Qed.
(** but the preview does not determine the content, even of known length: numbers are not
    padded and backslashes are not escaped *)
Theorem C62_preview_is_ambiguous : exists x y, x <> y /\ List.length x = List.length y /\ all_bytes x /\ all_bytes y /\ preview x = preview y.
Proof.
  exists [10; 66; 171]%N, [171; 10; 66]%N. split; [discriminate|]. split; [reflexivity|].
  split; [repeat (constructor; [reflexivity|]); constructor|]. split; [repeat (constructor; [reflexivity|]); constructor|]. vm_compute. reflexivity.
Qed.

(** ** dump of one record *)
(** a record read from an archive: what is printed; the second dump prints the same *)
Theorem C62_dump_of_a_record : forall w st after ct out1 out2, in_payload st (w_body w) after -> all_bytes (w_body w) ->
  header_of "Content-Type" w = Some ct ->
  exists r' st', rec_dump true out1 (handed w) st = (Ret tt, out1 ++ text_of (dump_lines (w_headers w) ct (w_body w)), r', st') /\
    rec_dump true out2 r' st' = (Ret tt, out2 ++ text_of (dump_lines (w_headers w) ct (w_body w)), r', st').
Proof.
  intros w st after ct out1 out2 Hi Hb Hct.
  pose proof (rec_content_payload (handed w) st (w_body w) after eq_refl eq_refl Hi) as E. rewrite ct_handed in E.
  change (ctype w) with (header_of "Content-Type" w) in E. rewrite Hct in E.
  do 2 eexists. split; [rewrite (dump_text out1 _ _ _ _ _ _ E Hb eq_refl); cbn [with_cf with_content r_errors handed parsed_rec]; reflexivity|].
  erewrite (dump_text out2); [|unfold rec_content; reflexivity|exact Hb|reflexivity]. reflexivity.
Qed.
(** a record built by hand from a (type, bytes) pair, without errors *)
Theorem C62_dump_of_a_built_record : forall v hs ct body st out, all_bytes body ->
  let r := new_warc v hs (Some (Some ct, Some body)) [] CF_none in
  rec_dump true out r st = (Ret tt, out ++ text_of (dump_lines hs ct body), r, st).
Proof.
  intros v hs ct body st out Hb r. rewrite (dump_text out r st ct body r st eq_refl Hb eq_refl). reflexivity.
Qed.
(** without the content: the payload stays unread *)
Theorem C62_dump_without_content : forall r st out, r_errors r = [] ->
  rec_dump false out r st =
  (Ret tt, out ++ text_of (B "Headers:" :: map (fun h => TAB :: fst h ++ B ":" ++ snd h) (r_headers r) ++ [B "Content: none"; []; []]), r, st).
Proof.
  intros r st out H. unfold rec_dump, dump_errors. rewrite H, headers_text, !print_more. cbn [app]. rewrite <- !app_assoc. reflexivity.
Qed.
(** records with errors cannot be dumped to the end *)
Theorem C62_dump_of_errors_raises : forall r st out, r_errors r <> [] ->
  forall content, fst (fst (fst (rec_dump content out r st))) <> Ret tt.
Proof.
  intros r st out H content. unfold rec_dump. destruct content.
  - destruct (rec_content r st) as [[[[ct body]|e|] r'] st'] eqn:E; try discriminate.
    assert (Er : r_errors r' = r_errors r).
    { revert E. unfold rec_content. destruct (r_content r) as [c|]; [intro E; injection E as _ <- _; reflexivity|].
      destruct (r_cf r) as [| | |rd]; try discriminate; [|intro E; injection E as _ _ <- _; reflexivity].
      destruct (stream_read st None) as [[d|e|] s]; try discriminate. intro E; injection E as _ _ <- _; reflexivity. }
    destruct ct as [ct|]; [|discriminate]. destruct body as [body|]; [|discriminate]. unfold dump_errors. rewrite Er.
    destruct (r_errors r); [congruence|discriminate].
  - unfold dump_errors. destruct (r_errors r); [congruence|discriminate].
Qed.

(** ** warcdump *)
(** the records of an archive whose first record is at byte [start] *)
Fixpoint dumped (shown : nat -> bytes) (name : bytes) (start : nat) (a : archive) : list bytes :=
  match a with
  | [] => []
  | (w, sep) :: t =>
      (B "archive record at " ++ name ++ B ":" ++ shown start) ::
      dump_lines (w_headers w) (match header_of "Content-Type" w with Some ct => ct | None => [] end) (w_body w) ++
      dumped shown name (start + List.length (wrec_text w) + List.length sep) t
  end.
Definition tail_note : list bytes := [[]; B "note: no errors encountered in tail of file"].
Definition has_type (w : wrec) : Prop := header_of "Content-Type" w <> None.

Definition dump_step (name : bytes) (out : bytes) (off : option nat) (w : wrec) : bytes :=
  out ++ text_of ((B "archive record at " ++ name ++ B ":" ++ show_offset off) ::
    dump_lines (w_headers w) (match header_of "Content-Type" w with Some ct => ct | None => [] end) (w_body w)).
Lemma dump_item_record name out st off w after ct : in_payload st (w_body w) after -> all_bytes (w_body w) -> header_of "Content-Type" w = Some ct ->
  exists st', dump_item name out st (off, Some (handed w), []) = (Ret true, dump_step name out off w, st') /\ used st (List.length (w_body w)) st'.
Proof.
  intros Hi Hb Hct. cbn [dump_item].
  pose proof (rec_content_payload (handed w) st (w_body w) after eq_refl eq_refl Hi) as E. rewrite ct_handed in E.
  change (ctype w) with (header_of "Content-Type" w) in E. rewrite Hct in E.
  rewrite (dump_text _ _ _ _ _ _ _ E Hb eq_refl). cbn [with_cf with_content r_errors handed parsed_rec r_headers].
  eexists. split; [|apply used_all]. unfold dump_step. rewrite Hct, print_first, <- app_assoc, <- text_of_app. reflexivity.
Qed.
Lemma dump_visits name a : Forall (fun p => has_type (fst p) /\ all_bytes (w_body (fst p))) a ->
  visits (dump_item name) (dump_step name) (fun out _ => out ++ text_of tail_note) a.
Proof.
  intro Ha. split.
  - intros s st w sep after off Hin Hi. rewrite Forall_forall in Ha. destruct (Ha _ Hin) as [Ht Hb]. cbn [fst] in *. unfold has_type in Ht.
    destruct (header_of "Content-Type" w) as [ct|] eqn:Ec; [|congruence]. eapply dump_item_record; eassumption.
  - intros s st off. eexists. cbn [dump_item]. rewrite (print_first s []), print_more. reflexivity.
Qed.
Lemma visit_dump fin name show a : forall start out,
  visit (dump_step name) fin show None start a out =
  fin (out ++ text_of (dumped (fun n => show_offset (show n)) name start a)) (show (start + List.length (archive_text a))).
Proof.
  induction a as [|[w sep] a IH]; intros start out; cbn [visit next_limit dumped].
  - unfold text_of. cbn. rewrite app_nil_r, Nat.add_0_r. reflexivity.
  - rewrite IH. unfold dump_step. rewrite <- app_assoc, <- text_of_app. f_equal.
    f_equal. rewrite archive_text_cons, !app_length. lia.
Qed.
(** files with an archive each, all of whose records have a Content-Type; [shown] is how
    offsets are shown: numbers for plain files, None for compressed ones *)
Definition dumpable (gunzip : bytes -> bytes) (i : input) (p : archive * (nat -> bytes)) : Prop :=
  archive_ok (fst p) /\ Forall (fun x => has_type (fst x) /\ all_bytes (w_body (fst x))) (fst p) /\ shown_for gunzip i (fst p) (snd p).
Definition dump_of_file (i : input) (p : archive * (nat -> bytes)) : bytes := text_of (dumped (snd p) (in_name i) 0 (fst p) ++ tail_note).
Definition dump_of_files (files : list input) (l : list (archive * (nat -> bytes))) : bytes :=
  concat (map (fun p => dump_of_file (fst p) (snd p)) (combine files l)).
Theorem C62_dump_of_archives : forall gunzip (files : list input) (l : list (archive * (nat -> bytes))),
  Forall2 (dumpable gunzip) files l -> warcdump gunzip files = (Ret tt, dump_of_files files l).
Proof.
  intros gunzip files l H. unfold warcdump, dump_of_files. rewrite <- (app_nil_l (concat _)).
  apply (over_files_all gunzip dump_file _ dump_of_file) with (2 := H).
  clear files l H. intros i [a shown] out (Hok & Hh & Hs). cbn [fst snd] in *.
  destruct Hs as [[Hi ->]|[Hi ->]].
  - rewrite (open_plain gunzip i _ Hi). eexists. split; [reflexivity|]. unfold dump_file.
    match goal with |- context [for_read_records _ _ _ _ ?s] => set (st := s) end.
    destruct (for_read_records_archive (dump_item (in_name i)) _ _ a None true out st 0 (dump_visits (in_name i) a Hh) Hok) as [st' E]; [|reflexivity|discriminate|].
    + left. split; [reflexivity|]. exists []. split; [reflexivity|]. split; [split; [intros c []|left; reflexivity]|reflexivity].
    + rewrite E, visit_dump. unfold dump_of_file. cbn [fst snd]. rewrite text_of_app, <- app_assoc. reflexivity.
  - rewrite (open_gz gunzip i _ Hi). eexists. split; [reflexivity|]. unfold dump_file.
    match goal with |- context [for_read_records _ _ _ _ ?s] => set (st := s) end.
    destruct (for_read_records_archive (dump_item (in_name i)) _ _ a None true out st 0 (dump_visits (in_name i) a Hh) Hok) as [st' E]; [|reflexivity|discriminate|].
    + left. split; [reflexivity|]. exists []. split; [reflexivity|]. split; [split; [intros c []|left; reflexivity]|reflexivity].
    + rewrite E, visit_dump. unfold dump_of_file. cbn [fst snd]. rewrite text_of_app, <- app_assoc. reflexivity.
Qed.

(** plain files that go on after an archive with something the tool cannot dump: [x] is the
    rest of the file, [more] are further files *)
Lemma dump_then gunzip files l i a x more o y :
  Forall2 (dumpable gunzip) files l -> archive_ok a -> Forall (fun p => has_type (fst p) /\ all_bytes (w_body (fst p))) a ->
  plain_file i (archive_text a ++ x) ->
  (forall st fuel out, ready st (List.length (archive_text a)) x ->
     exists st', read_loop (S fuel) None true (dump_item (in_name i)) out st = (o, out ++ y, st')) ->
  warcdump gunzip (files ++ i :: more) =
  match o with
  | Ret _ => over_files gunzip dump_file more (dump_of_files files l ++ text_of (dumped dec_nat (in_name i) 0 a) ++ y)
  | _ => (o, dump_of_files files l ++ text_of (dumped dec_nat (in_name i) 0 a) ++ y)
  end.
Proof.
  intros Hf Hok Ha Hi Hx. unfold warcdump. pose proof (C62_dump_of_archives gunzip files l Hf) as E. unfold warcdump in E.
  rewrite (over_files_app _ _ _ _ _ _ E). cbn [over_files]. rewrite (open_plain gunzip i _ Hi). unfold dump_file at 1.
  match goal with |- context [for_read_records _ _ _ _ ?s] => set (st := s) end.
  assert (Hat : at_text st 0 (archive_text a ++ x)).
  { left. split; [reflexivity|]. exists []. split; [reflexivity|]. split; [split; [intros c []|left; reflexivity]|reflexivity]. }
  destruct (split_fuel _ _ _ _ Hat) as [n Hn]. unfold for_read_records. rewrite Hn.
  destruct (read_then (dump_item (in_name i)) _ _ a x (S n) (dump_of_files files l) st 0 (dump_visits (in_name i) a Ha) Hok Hat eq_refl eq_refl)
    as (st' & s' & E1 & Hs & Hat' & Hp' & Hk' & _).
  rewrite E1. specialize (Hs (fun s _ => s)). rewrite visit_dump in Hs. change (fun n0 : nat => show_offset (Some n0)) with dec_nat in Hs. rewrite <- Hs.
  destruct (at_text_fresh _ _ _ Hat') as (st0 & Heq & He & Hr0 & Hpos & Hk0 & Hp0 & _).
  destruct (Hx st0 n (dump_of_files files l ++ text_of (dumped dec_nat (in_name i) 0 a))) as [st1 E2].
  { split; [congruence|]. split; [congruence|]. split; [exact He|]. split; [exact Hpos|exact Hr0]. }
  cbn [read_loop] in E2 |- *. rewrite Heq. rewrite E2. rewrite <- app_assoc. destruct o; reflexivity.
Qed.
(** a record without Content-Type: AttributeError, nothing after its headers is printed *)
Theorem C62_dump_stops_without_content_type : forall gunzip files l i a w sep b more,
  Forall2 (dumpable gunzip) files l -> archive_ok (a ++ (w, sep) :: b) ->
  Forall (fun p => has_type (fst p) /\ all_bytes (w_body (fst p))) a -> header_of "Content-Type" w = None ->
  plain_file i (archive_text (a ++ (w, sep) :: b)) ->
  warcdump gunzip (files ++ i :: more) =
  (Raise EAttributeError, dump_of_files files l ++
     text_of (dumped dec_nat (in_name i) 0 a ++
              (B "archive record at " ++ in_name i ++ B ":" ++ dec_nat (List.length (archive_text a))) :: header_lines (w_headers w))).
Proof.
  intros gunzip files l i a w sep b more Hf Hok Ha Hct Hi.
  assert (Ea : archive_text (a ++ (w, sep) :: b) = archive_text a ++ archive_text ((w, sep) :: b)).
  { unfold archive_text. rewrite map_app, concat_app. reflexivity. }
  rewrite Ea in Hi. apply Forall_app in Hok as [Hok1 Hok2].
  rewrite (dump_then gunzip files l i a _ more (Raise EAttributeError) (text_of ((B "archive record at " ++ in_name i ++ B ":" ++ dec_nat (List.length (archive_text a))) :: header_lines (w_headers w))) Hf Hok1 Ha Hi).
  - rewrite text_of_app. reflexivity.
  - intros st fuel out (Hk & Hp & He & Hpos & Hr). cbn [read_loop].
    destruct (read_first st (List.length (archive_text a)) w sep b true) as (st1 & E & Hin & _); [|exact Hp|rewrite Hk; discriminate|apply (Forall_inv Hok2)|].
    { left. split; [exact He|]. exists []. split; [exact Hr|]. split; [split; [intros c []|left; reflexivity]|]. unfold pos, f_tell. cbn [List.length]. lia. }
    rewrite E, Hk. cbn [dump_item].
    pose proof (rec_content_payload (handed w) st1 (w_body w) _ eq_refl eq_refl Hin) as E1. rewrite ct_handed in E1.
    change (ctype w) with (header_of "Content-Type" w) in E1. rewrite Hct in E1.
    rewrite (dump_no_type _ _ _ _ _ _ E1). eexists. rewrite print_first, <- app_assoc, <- text_of_app. reflexivity.
Qed.
(** a record the reader accepts with remarks (bare newlines, junk before it ...): TypeError
    after the line 'Errors:' *)
Theorem C62_dump_stops_at_errors : forall gunzip files l i a g x more ct,
  Forall2 (dumpable gunzip) files l -> archive_ok a ->
  Forall (fun p => has_type (fst p) /\ all_bytes (w_body (fst p))) a ->
  g_ok g -> all_bytes (g_body g) -> g_errors g <> [] -> header_of "Content-Type" (g_wrec g) = Some ct ->
  plain_file i (archive_text a ++ g_text g ++ x) ->
  let off := List.length (archive_text a) + List.length (concat (g_junk g)) + List.length (g_pfx g) in
  warcdump gunzip (files ++ i :: more) =
  (Raise ETypeError, dump_of_files files l ++
     text_of (dumped dec_nat (in_name i) 0 a ++
              (B "archive record at " ++ in_name i ++ B ":" ++ dec_nat off) ::
              dump_lines (w_headers (g_wrec g)) ct (g_body g) ++ [B "Errors:"])).
Proof.
  intros gunzip files l i a g x more ct Hf Hok Ha Hg Hb He Hct Hi off.
  rewrite (dump_then gunzip files l i a _ more (Raise ETypeError) (text_of ((B "archive record at " ++ in_name i ++ B ":" ++ dec_nat off) ::
              dump_lines (w_headers (g_wrec g)) ct (g_body g) ++ [B "Errors:"])) Hf Hok Ha Hi).
  - rewrite text_of_app. reflexivity.
  - intros st fuel out Hst. cbn [read_loop]. destruct Hg as (H1 & H2 & H3 & H4 & H5 & H6 & H7 & H8).
    assert (Hrd : ready st (List.length (archive_text a)) (concat (g_junk g) ++ g_vline g ++ entries_of (g_entries g) ++ eol (g_crlf g) ++ (g_body g ++ x))).
    { unfold ready in *. unfold g_text in Hst. rewrite <- !app_assoc in Hst. exact Hst. }
    destruct (read_general st _ (g_junk g) (g_vline g) (g_pfx g) (g_ws g) (g_tag g) (g_num g) (ToolFacts.g_nl g) (g_entries g) (g_crlf g) _ true Hrd H1 H2 H3 H4 H5 H6 H7)
      as (st1 & E & He1 & Hr1 & _).
    rewrite E. cbn [dump_item]. fold off.
    assert (Hin : in_payload st1 (g_body g) x) by (split; [rewrite He1, H8; reflexivity|exact Hr1]).
    pose proof (rec_content_payload (g_handed g) st1 (g_body g) x eq_refl eq_refl Hin) as E1.
    assert (Ec : get_header (g_handed g) (ct_name (g_handed g)) = Some ct) by (rewrite <- Hct; unfold get_header; apply lookup_first).
    rewrite Ec in E1. unfold g_handed, parsed_rec, g_errors in E1. cbn [g_wrec w_version w_headers] in E1.
    erewrite (dump_text _ _ _ _ _ _ _ E1 Hb eq_refl). cbn [with_cf with_content r_errors r_headers]. 
    change (map ErrIgnored (junk_lines (g_junk g)) ++ vnl_errors (ToolFacts.g_nl g) ++ prefix_errors (g_pfx g) ++ concat (map entry_errors (g_entries g))) with (g_errors g).
    destruct (g_errors g) as [|y l0]; [congruence|]. eexists. rewrite print_first, <- app_assoc, <- text_of_app. reflexivity.
Qed.
(** text after the last record in which no record starts: the errors are listed and the
    tool goes on with the next file *)
Definition error_lines (errs : list perr) : list bytes := map (fun e => TAB :: 32%N :: show_perr e) errs.
Theorem C62_dump_reports_junk : forall gunzip files l i a junk,
  Forall2 (dumpable gunzip) files l -> archive_ok a ->
  Forall (fun p => has_type (fst p) /\ all_bytes (w_body (fst p))) a ->
  Forall (fun l => version_line l = false) (lines_of junk) -> junk_lines (lines_of junk) <> [] ->
  plain_file i (archive_text a ++ junk) ->
  warcdump gunzip (files ++ [i]) =
  (Ret tt, dump_of_files files l ++
     text_of (dumped dec_nat (in_name i) 0 a ++
              (B "warc errors at " ++ in_name i ++ B ":" ++ dec_nat (List.length (archive_text a) + junk_read_length junk)) ::
              error_lines (junk_report (junk_lines (lines_of junk))))).
Proof.
  intros gunzip files l i a junk Hf Hok Ha Hv Hj Hi.
  set (n := junk_read_length junk).
  rewrite (dump_then gunzip files l i a _ [] (Ret tt) (text_of ((B "warc errors at " ++ in_name i ++ B ":" ++ dec_nat (List.length (archive_text a) + n)) ::
              error_lines (junk_report (junk_lines (lines_of junk))))) Hf Hok Ha Hi).
  - cbn [over_files]. rewrite text_of_app. reflexivity.
  - intros st fuel out Hst. cbn [read_loop].
    destruct (junk_read junk st _ true Hst Hv) as (st2 & E1).
    rewrite E1. cbn [item_offset dump_item fst snd].
    assert (Hne : junk_report (junk_lines (lines_of junk)) <> []) by (rewrite junk_report_nil; exact Hj).
    destruct (junk_report (junk_lines (lines_of junk))) as [|e errs]; [congruence|]. cbn [fst snd].
    eexists. rewrite (print_fold (fun e => [9; 32]%N ++ show_perr e)), print_first, <- app_assoc, <- text_of_app. reflexivity.
Qed.

(** ** non-trivial cases *)
Lemma all_bytes_b s : forallb (fun c => N.ltb c 256) s = true -> all_bytes s.
Proof. intro H. apply Forall_forall. intros c Hc. rewrite forallb_forall in H. apply N.ltb_lt, H, Hc. Qed.
Lemma d_dumpable : dumpable plain_id (t_file [t_info; t_cut]) (t_archive [t_info; t_cut], dec_nat).
Proof.
  split; [apply archive_okb_sound; vm_compute; reflexivity|]. split.
  - repeat (constructor; [split; [vm_compute; discriminate|apply all_bytes_b; vm_compute; reflexivity]|]). constructor.
  - left. split; [|reflexivity]. split; [apply name_plain; reflexivity|]. split; [|reflexivity]. intros t E. revert E. vm_compute. discriminate.
Qed.
Definition d_expected : bytes :=
  text_of [B "archive record at x.warc:0"; B "Headers:"; TAB :: B "WARC-Type:warcinfo"; TAB :: B "WARC-Target-URI:http://a/";
           TAB :: B "WARC-Record-ID:<urn:1>"; TAB :: B "Content-Type:application/warc-fields"; TAB :: B "Content-Length:6"; B "Content Headers:";
           TAB :: B "Content-Type : application/warc-fields"; TAB :: B "Content-Length : 6"; B "Content:";
           TAB :: B "k\x3A v\xD\xA"; TAB :: B "..."; []].
Example C62_case : Forall2 (dumpable plain_id) [t_file [t_info; t_cut]] [(t_archive [t_info; t_cut], dec_nat)] /\
  firstn (List.length d_expected) (snd (warcdump plain_id [t_file [t_info; t_cut]])) = d_expected.
Proof. split; [constructor; [exact d_dumpable|constructor]|vm_compute; reflexivity]. Qed.
(** a record without Content-Type after one with it *)
Example C62_case_no_type : archive_ok (t_archive [t_info; t_bare]) /\ header_of "Content-Type" t_bare = None /\
  fst (warcdump plain_id [t_file [t_info; t_bare]]) = Raise EAttributeError.
Proof. split; [apply archive_okb_sound; vm_compute; reflexivity|]. split; vm_compute; reflexivity. Qed.
(** a record in a loose layout: errors, and a Content-Type *)
Definition d_loose : grec := mkg [B "# comment" ++ [LF]] [] [] (B "WARC/") (B "1.0") [LF] [plain_entry (B "Content-Type", B "text/plain"); plain_entry (B "Content-Length", B "2")] true (B "hi").
Example C62_case_errors : g_errors d_loose <> [] /\ header_of "Content-Type" (g_wrec d_loose) = Some (B "text/plain") /\
  warcdump plain_id [mkin (B "x.warc") (g_text d_loose)] =
  (Raise ETypeError, text_of ([B "archive record at x.warc:10"; B "Headers:"; TAB :: B "Content-Type:text/plain"; TAB :: B "Content-Length:2"; B "Content Headers:";
     TAB :: B "Content-Type : text/plain"; TAB :: B "Content-Length : 2"; B "Content:"; TAB :: B "hi"; TAB :: B "..."; []; B "Errors:"])).
Proof. split; [vm_compute; discriminate|]. split; vm_compute; reflexivity. Qed.
Example C62_case_junk : snd (warcdump plain_id [mkin (B "x.warc") (B "it's junk" ++ [CR; LF])]) =
  text_of [B "warc errors at x.warc:11"; TAB :: B " ('ignored line', b""it's junk\r\n"")"].
Proof. vm_compute. reflexivity. Qed.

(** ** error lines tell errors apart *)
Definition byte_pairs : list (N * N) := list_prod byte_list byte_list.
Definition no_clash (q : N) (p : N * N) : bool :=
  N.eqb (fst p) (snd p) || negb (startswith (HttpRequest.repr_byte q (fst p)) (HttpRequest.repr_byte q (snd p))).
Lemma no_clash_all q : q = 34%N \/ q = 39%N -> forall c d, (c < 256)%N -> (d < 256)%N -> no_clash q (c, d) = true.
Proof.
  intros Hq c d Hc Hd. assert (G : forallb (no_clash q) byte_pairs = true) by (destruct Hq as [-> | ->]; vm_compute; reflexivity).
  rewrite forallb_forall in G. apply G. unfold byte_pairs. apply in_prod; unfold byte_list; apply in_map_iff; [exists (N.to_nat c)|exists (N.to_nat d)];
  (split; [lia|apply in_seq; lia]).
Qed.
Lemma repr_first q c : q = 34%N \/ q = 39%N -> (c < 256)%N -> exists x t, HttpRequest.repr_byte q c = x :: t /\ x <> q.
Proof.
  intros Hq Hc. assert (E : (match HttpRequest.repr_byte q c with x :: _ => negb (N.eqb x q) | [] => false end) = true).
  { revert c Hc. apply (byte_cases (fun c => match HttpRequest.repr_byte q c with x :: _ => negb (N.eqb x q) | [] => false end)). destruct Hq as [-> | ->]; vm_compute; reflexivity. }
  destruct (HttpRequest.repr_byte q c) as [|x t]; [discriminate|]. exists x, t. split; [reflexivity|]. intros ->. rewrite N.eqb_refl in E. discriminate.
Qed.
Lemma app_startswith (u v s t : bytes) : u ++ s = v ++ t -> startswith u v = true \/ startswith v u = true.
Proof.
  revert v. induction u as [|x u IH]; intros v H; [left; apply startswith_iff; exists v; reflexivity|]. destruct v as [|y v]; [right; apply startswith_iff; eexists; reflexivity|].
  injection H as -> H. destruct (IH v H) as [E|E]; apply startswith_iff in E as [z E]; [left|right]; apply startswith_iff; exists z; rewrite E; reflexivity.
Qed.
Lemma repr_body_inj q : q = 34%N \/ q = 39%N -> forall a b x y, all_bytes a -> all_bytes b ->
  concat (map (HttpRequest.repr_byte q) a) ++ [q] ++ x = concat (map (HttpRequest.repr_byte q) b) ++ [q] ++ y -> a = b /\ x = y.
Proof.
  intro Hq. induction a as [|c a IH]; intros [|d b] x y Ha Hb H; cbn [map concat] in H.
  - injection H as H. auto.
  - exfalso. inversion Hb; subst. destruct (repr_first q d Hq) as (z & t & E & Hz); [assumption|]. rewrite E in H. injection H as H _. congruence.
  - exfalso. inversion Ha; subst. destruct (repr_first q c Hq) as (z & t & E & Hz); [assumption|]. rewrite E in H. injection H as H _. congruence.
  - inversion Ha as [|? ? Hc Ha']; subst. inversion Hb as [|? ? Hd Hb']; subst. rewrite <- !app_assoc in H. assert (c = d).
    { destruct (N.eq_dec c d) as [E|E]; [exact E|exfalso]. destruct (app_startswith _ _ _ _ H) as [G|G].
      - pose proof (no_clash_all q Hq c d Hc Hd) as F. unfold no_clash in F. cbn [fst snd] in F. rewrite G in F. apply N.eqb_neq in E. rewrite E in F. discriminate.
      - pose proof (no_clash_all q Hq d c Hd Hc) as F. unfold no_clash in F. cbn [fst snd] in F. rewrite G in F. assert (E' : d <> c) by congruence. apply N.eqb_neq in E'. rewrite E' in F. discriminate. }
    subst d. apply app_inv_head in H. destruct (IH b x y Ha' Hb' H) as [-> ->]. auto.
Qed.
Lemma repr_inj a b x y : all_bytes a -> all_bytes b -> HttpRequest.repr_bytes a ++ x = HttpRequest.repr_bytes b ++ y -> a = b /\ x = y.
Proof.
  intros Ha Hb. unfold HttpRequest.repr_bytes. cbv zeta.
  set (q := if existsb (N.eqb 39) a && negb (existsb (N.eqb 34) a) then 34%N else 39%N).
  set (q' := if existsb (N.eqb 39) b && negb (existsb (N.eqb 34) b) then 34%N else 39%N).
  intro H. rewrite <- !app_assoc in H. cbn [app] in H. injection H as Hq H. rewrite <- Hq in H.
  apply (repr_body_inj q) in H; [exact H| |exact Ha|exact Hb]. unfold q. destruct (_ && _); auto.
Qed.
Definition perr_bytes (e : perr) : Prop :=
  match e with
  | ErrIgnored a | ErrNoHeaders a | ErrVersionNl a | ErrPrefix a | ErrHeaderNl a => all_bytes a
  | ErrTooMany => True
  | ErrFollowNl a b | ErrInvalid a b => all_bytes a /\ all_bytes b
  end.
Theorem C62_error_lines_tell_apart : forall e f, perr_bytes e -> perr_bytes f -> show_perr e = show_perr f -> e = f.
Proof.
  intros e f He Hf H.
  destruct e as [a| |a|a|a|a|a a2|a a2], f as [b| |b|b|b|b|b b2|b b2]; try reflexivity;
    try (exfalso; clear - H; unfold show_perr in H; repeat match type of H with context [HttpRequest.repr_bytes ?X] => let z := fresh in set (z := HttpRequest.repr_bytes X) in H; clearbody z end; vm_compute in H; discriminate H).
  all: cbn [perr_bytes] in He, Hf; unfold show_perr in H; cbn [join] in H; rewrite <- ?app_assoc in H; apply app_inv_head in H;
    apply app_inv_head in H; apply app_inv_head in H.
  1-5: apply repr_inj in H as [-> _]; [reflexivity|assumption|assumption].
  all: destruct He as [He1 He2], Hf as [Hf1 Hf2]; apply repr_inj in H as [-> H]; [|assumption|assumption];
    apply app_inv_head in H; apply repr_inj in H as [-> _]; [reflexivity|assumption|assumption].
Qed.
Example C62_case_errors_ok : g_ok d_loose /\ all_bytes (g_body d_loose) /\ plain_file (mkin (B "x.warc") (g_text d_loose)) (archive_text [] ++ g_text d_loose ++ []).
Proof.
  split; [|split; [apply all_bytes_b; reflexivity|]].
  - split; [|split; [|split; [|split; [|split; [|split; [|split]]]]]].
    + constructor; [|constructor]. match goal with |- is_line ?l => apply (is_lineb l (removelast l)); reflexivity end.
    + repeat constructor.
    + vm_compute. lia.
    + match goal with |- is_line ?l => apply (is_lineb l (removelast l)); reflexivity end.
    + split; [reflexivity|]. split; [reflexivity|]. split; [reflexivity|]. split; [reflexivity|]. split; [intros t c E; destruct t; discriminate|].
      right. right. split; [reflexivity|]. intros t E. change (B "1." ++ [48%N] = t ++ [CR]) in E. apply app_inj_tail in E as [_ E]. discriminate.
    + left. reflexivity.
    + constructor; [|constructor; [|constructor]]; apply plain_entry_ok, header_okb_sound; vm_compute; reflexivity.
    + vm_compute. reflexivity.
  - split; [apply name_plain; reflexivity|]. split; [|rewrite app_nil_r; reflexivity]. intros t E. revert E. vm_compute. discriminate.
Qed.
