(** C64: writing when the output fails.  C65: writing to a record stream. *)
From Verif Require Export Sink PropsRecord Checks.
From Coq Require Import String List Lia ZArith.
Open Scope list_scope.

(** ** the calls together write what write_to writes *)
Lemma put_all_file chunks : forall k, put_all put_file k chunks = (Ret tt, k ++ concat chunks).
Proof.
  induction chunks as [|b t IH]; intro k; cbn [put_all concat]; [rewrite app_nil_r; reflexivity|]. unfold put_file at 1. rewrite IH, <- app_assoc. reflexivity.
Qed.
Lemma copy_calls_file fuel : forall c st k, copy_calls put_file fuel c st k = copy_loop fuel c st k.
Proof.
  induction fuel as [|fuel IH]; intros c st k; cbn [copy_calls copy_loop]; [reflexivity|].
  destruct (cf_read c st (Z.to_nat CHUNK_SIZE)) as [[[[|x buf]|e|] c'] st']; reflexivity.
Qed.
Lemma head_calls_text version nl ff hs : concat (head_calls version nl ff hs) = version ++ nl ++ write_headers ff nl hs.
Proof.
  unfold head_calls, write_headers. rewrite concat_app. cbn [concat]. rewrite app_nil_r, <- !app_assoc. do 2 f_equal.
  induction (filter (keeps_header ff) hs) as [|h t IH]; [reflexivity|]. cbn [map concat]. rewrite concat_app, IH. unfold header_calls, header_line. cbn [concat].
  rewrite app_nil_r, <- !app_assoc. reflexivity.
Qed.
Lemma content_calls_text nl ct buf : concat (content_calls nl ct buf) =
  (if truthy ct then CONTENT_TYPE ++ [58; 32]%N ++ or_empty ct ++ nl else []) ++
  (CONTENT_LENGTH ++ [58; 32]%N ++ dec_nat (List.length (or_empty buf)) ++ nl) ++ nl ++ or_empty buf.
Proof.
  unfold content_calls. rewrite !concat_app. f_equal; [destruct (truthy ct); cbn [concat]; rewrite ?app_nil_r, <- ?app_assoc; reflexivity|].
  cbn [concat]. rewrite app_nil_r, <- !app_assoc. do 5 f_equal. destruct buf as [[|x b]|]; cbn; rewrite ?app_nil_r; reflexivity.
Qed.
Lemma copy_loop_out fuel : forall c st out, exists d, snd (copy_loop fuel c st out) = out ++ d /\
  forall out', copy_loop fuel c st out' = (fst (copy_loop fuel c st out), out' ++ d).
Proof.
  induction fuel as [|fuel IH]; intros c st out; cbn [copy_loop]; [exists []; rewrite app_nil_r; split; [reflexivity|intro; rewrite app_nil_r; reflexivity]|].
  destruct (cf_read c st (Z.to_nat CHUNK_SIZE)) as [[[[|x buf]|e|] c'] st'];
    try (exists []; rewrite app_nil_r; split; [reflexivity|intro; rewrite app_nil_r; reflexivity]).
  destruct (IH c' st' (out ++ x :: buf)) as (d & E1 & E2). exists ((x :: buf) ++ d). rewrite E1, <- app_assoc. split; [reflexivity|].
  intro out'. rewrite E2, <- app_assoc. reflexivity.
Qed.
Theorem C64_calls_add_up : forall nl (r : record) (st : stream) (before : bytes),
  write_calls put_file nl r st before = (fst (write_to None nl r st), before ++ snd (write_to None nl r st)).
Proof.
  intros nl r st k. unfold write_calls, write_to, rec_write, warc_calls, warc_write.
  destruct (r_cf r) eqn:Ecf; [cbn; rewrite app_nil_r; reflexivity| | |];
  (destruct (has_cf r && negb (r_valid r)) eqn:Ev; [cbn; rewrite app_nil_r; reflexivity|]);
  (destruct (r_class r) as [v| |v raws]; [|cbn; rewrite app_nil_r; reflexivity|cbn; rewrite app_nil_r; reflexivity]);
  rewrite put_all_file, head_calls_text; rewrite <- Ecf in *.
  all: destruct (has_cf r) eqn:Eh.
  all: try (rewrite put_all_file, copy_calls_file; cbn [concat]; rewrite ?app_nil_r;
    match goal with |- context [copy_loop ?f ?c ?s ((?kk ++ ?x) ++ ?ll)] =>
      destruct (copy_loop_out f c s (x ++ ll)) as (d & E1 & E2); rewrite (E2 ((kk ++ x) ++ ll)); rewrite (E2 (x ++ ll));
      destruct (fst (copy_loop f c s (x ++ ll))) as [[[[]|e|] c'] s'] end;
    rewrite ?put_all_file; cbn [concat fst snd]; rewrite ?app_nil_r, <- ?app_assoc; reflexivity).
  all: destruct (rec_content r st) as [[[[ct buf]|e|] r'] s']; rewrite ?put_all_file; cbn [fst snd]; rewrite ?concat_app, ?content_calls_text; cbn [concat];
    rewrite ?app_nil_r, <- ?app_assoc; reflexivity.
Qed.

(** ** C64: a full disk *)
Definition fits (text : bytes) (room : nat) : bool := Nat.leb (List.length text) room.
Lemma firstn_over (a b : bytes) n : List.length a <= n -> firstn n (a ++ b) = a ++ firstn (n - List.length a) b.
Proof. intro H. rewrite firstn_app, firstn_all2 by exact H. reflexivity. Qed.
Lemma firstn_under (a b : bytes) n : n < List.length a -> firstn n (a ++ b) = firstn n a.
Proof. intro H. rewrite firstn_app. replace (n - List.length a) with 0 by lia. cbn. apply app_nil_r. Qed.
Lemma put_all_full chunks : forall s room, put_all put_full (s, room) chunks =
  if fits (concat chunks) room then (Ret tt, (s ++ concat chunks, room - List.length (concat chunks)))
  else (Raise EOSError, (s ++ firstn room (concat chunks), 0)).
Proof.
  unfold fits. induction chunks as [|b t IH]; intros s room; cbn [put_all concat]; [cbn; rewrite app_nil_r, Nat.sub_0_r; reflexivity|].
  unfold put_full at 1. rewrite app_length. destruct (Nat.leb_spec (List.length b) room) as [H|H].
  - rewrite IH, firstn_over, <- !app_assoc by exact H. destruct (Nat.leb_spec (List.length (concat t)) (room - List.length b)); destruct (Nat.leb_spec (List.length b + List.length (concat t)) room); try lia; try reflexivity.
    do 2 f_equal. lia.
  - rewrite firstn_under by exact H. destruct (Nat.leb_spec (List.length b + List.length (concat t)) room); [lia|reflexivity].
Qed.
Lemma copy_full fuel : forall c st s room, 
  let d := snd (copy_loop fuel c st []) in
  if fits d room then copy_calls put_full fuel c st (s, room) = (fst (copy_loop fuel c st []), (s ++ d, room - List.length d))
  else exists c' st', copy_calls put_full fuel c st (s, room) = (Raise EOSError, c', st', (s ++ firstn room d, 0)).
Proof.
  unfold fits. induction fuel as [|fuel IH]; intros c st s room; cbn [copy_loop copy_calls snd fst List.length Nat.leb]; [rewrite app_nil_r, Nat.sub_0_r; reflexivity|].
  destruct (cf_read c st (Z.to_nat CHUNK_SIZE)) as [[[[|x buf]|e|] c'] st']; cbn [snd fst List.length Nat.leb]; try (rewrite app_nil_r, Nat.sub_0_r; reflexivity).
  set (b := x :: buf). destruct (copy_loop_out fuel c' st' []) as (d & E1 & E2). specialize (IH c' st'). rewrite E1 in IH. cbn [app] in IH. cbv zeta in IH.
  rewrite (E2 ([] ++ b)). cbn [app fst snd]. rewrite app_length. unfold put_full at 1 3. destruct (Nat.leb_spec (List.length b) room) as [H|H].
  - specialize (IH (s ++ b) (room - List.length b)).
    destruct (Nat.leb_spec (List.length d) (room - List.length b)); destruct (Nat.leb_spec (List.length b + List.length d) room); try lia.
    + etransitivity; [exact IH|]. rewrite <- app_assoc. do 2 f_equal. lia.
    + destruct IH as (c2 & s2 & E). exists c2, s2. etransitivity; [exact E|]. rewrite firstn_over, <- app_assoc by exact H. reflexivity.
  - destruct (Nat.leb_spec (List.length b + List.length d) room); [lia|]. exists c', st'. rewrite firstn_under by exact H. reflexivity.
Qed.
Lemma fits_app a b room : fits (a ++ b) room = fits a room && fits b (room - List.length a).
Proof.
  unfold fits. rewrite app_length. destruct (Nat.leb_spec (List.length a) room); destruct (Nat.leb_spec (List.length b) (room - List.length a));
    destruct (Nat.leb_spec (List.length a + List.length b) room); cbn; try reflexivity; lia.
Qed.
Lemma fits_le a room : fits a room = true -> List.length a <= room.
Proof. intro H. apply Nat.leb_le. exact H. Qed.
Lemma fits_lt a room : fits a room = false -> room < List.length a.
Proof. intro H. apply Nat.leb_gt. exact H. Qed.
Lemma warc_full v nl r st k room :
  let text := snd (warc_write v nl r st) in
  if fits text room then warc_calls put_full v nl r st (k, room) = (fst (warc_write v nl r st), (k ++ text, room - List.length text))
  else exists r' st', warc_calls put_full v nl r st (k, room) = (Raise EOSError, r', st', (k ++ firstn room text, 0)).
Proof.
  cbv zeta. unfold warc_calls, warc_write. rewrite put_all_full, head_calls_text. set (h := v ++ nl ++ write_headers (has_cf r) nl (r_headers r)).
  destruct (has_cf r) eqn:Eh.
  - destruct (copy_loop_out (cf_fuel (r_cf r) st) (r_cf r) st []) as (d & E1 & E2). rewrite (E2 (h ++ nl)). cbn [app] in E1.
    pose proof (copy_full (cf_fuel (r_cf r) st) (r_cf r) st) as HC. cbv zeta in HC. rewrite E1 in HC. clear E1 E2.
    destruct (fst (copy_loop (cf_fuel (r_cf r) st) (r_cf r) st [])) as [[o c'] s'].
    match goal with |- context [fits (snd ?X)] => assert (ET : snd X = h ++ nl ++ d ++ match o with Ret _ => nl ++ nl | _ => [] end)
      by (destruct o; cbn [snd]; rewrite ?app_nil_r, <- ?app_assoc; reflexivity); rewrite ET; clear ET end.
    rewrite !fits_app. destruct (fits h room) eqn:F1; cbn [andb]; [apply fits_le in F1|apply fits_lt in F1; exists r, st; rewrite firstn_under by exact F1; reflexivity].
    rewrite put_all_full. cbn [concat]. rewrite app_nil_r. rewrite firstn_over by exact F1.
    destruct (fits nl (room - List.length h)) eqn:F2; cbn [andb]; [apply fits_le in F2|apply fits_lt in F2; exists r, st; rewrite firstn_under, <- app_assoc by exact F2; reflexivity].
    rewrite firstn_over by exact F2. specialize (HC ((k ++ h) ++ nl) (room - List.length h - List.length nl)).
    destruct (fits d (room - List.length h - List.length nl)) eqn:F3; cbn [andb].
    + apply fits_le in F3. rewrite firstn_over by exact F3. unfold bytes in *. rewrite HC. destruct o as [u|e|].
      * rewrite put_all_full. cbn [concat]. rewrite app_nil_r. destruct (fits (nl ++ nl) _) eqn:F4.
        -- cbn [fst snd]. rewrite !app_length, <- !app_assoc. destruct u. do 2 f_equal. lia.
        -- exists (with_valid (with_cf r c') (r_valid r)), s'. rewrite <- !app_assoc. reflexivity.
      * cbn [fst snd fits List.length Nat.leb]. rewrite !app_length, <- !app_assoc. cbn [List.length]. rewrite app_nil_r. do 2 f_equal. lia.
      * cbn [fst snd fits List.length Nat.leb]. rewrite !app_length, <- !app_assoc. cbn [List.length]. rewrite app_nil_r. do 2 f_equal. lia.
    + apply fits_lt in F3. rewrite firstn_under by exact F3. unfold bytes in *. destruct HC as (c2 & s2 & ->).
      exists (with_valid (with_cf r c2) (r_valid r)), s2. rewrite <- !app_assoc. reflexivity.
  - destruct (rec_content r st) as [[[[ct buf]|e|] r'] s'].
    + cbn [snd fst]. match goal with |- context [fits ?X room] => replace X with (h ++ concat (content_calls nl ct buf ++ [nl; nl]))
        by (rewrite concat_app, content_calls_text; cbn [concat]; rewrite ?app_nil_r, <- ?app_assoc; reflexivity) end.
      rewrite fits_app. destruct (fits h room) eqn:F1; cbn [andb]; [apply fits_le in F1|apply fits_lt in F1; exists r, st; rewrite firstn_under by exact F1; reflexivity].
      rewrite put_all_full, firstn_over by exact F1. destruct (fits (concat (content_calls nl ct buf ++ [nl; nl])) (room - List.length h)).
      * rewrite app_length, <- !app_assoc. do 2 f_equal. lia.
      * exists r', s'. rewrite <- !app_assoc. reflexivity.
    + cbn [snd fst]. destruct (fits h room); [reflexivity|]. exists r, st. reflexivity.
    + cbn [snd fst]. destruct (fits h room); [reflexivity|]. exists r, st. reflexivity.
Qed.
(** Whatever record is written, wherever it comes from, to an output that has stored
    [before] and has room for [room] more bytes: if the text write_to produces fits, the
    run is the same; if not, OSError is raised and exactly the first [room] bytes of the
    text are stored. *)
Theorem C64_full_disk : forall nl (r : record) (st : stream) (before : bytes) (room : nat),
  let text := snd (write_to None nl r st) in
  (List.length text <= room ->
     write_calls put_full nl r st (before, room) = (fst (write_to None nl r st), (before ++ text, room - List.length text))) /\
  (room < List.length text ->
     exists r' st', write_calls put_full nl r st (before, room) = (Raise EOSError, r', st', (before ++ firstn room text, 0))).
Proof.
  assert (G : forall nl (r : record) (st : stream) (before : bytes) (room : nat),
    let text := snd (write_to None nl r st) in
    if fits text room then write_calls put_full nl r st (before, room) = (fst (write_to None nl r st), (before ++ text, room - List.length text))
    else exists r' st', write_calls put_full nl r st (before, room) = (Raise EOSError, r', st', (before ++ firstn room text, 0))).
  { intros nl r st k room. unfold write_calls, write_to, rec_write.
    destruct (r_cf r) eqn:Ecf; [cbn; rewrite app_nil_r, Nat.sub_0_r; reflexivity| | |];
    (destruct (has_cf r && negb (r_valid r)) eqn:Ev; [cbn; rewrite app_nil_r, Nat.sub_0_r; reflexivity|]);
    (destruct (r_class r) as [v| |v raws]; [|cbn; rewrite app_nil_r, Nat.sub_0_r; reflexivity|cbn; rewrite app_nil_r, Nat.sub_0_r; reflexivity]);
    pose proof (warc_full v nl r st k room) as W; cbv zeta in *;
    destruct (warc_write v nl r st) as [[[[[]|e|] r'] s'] t]; cbn [fst snd] in *;
    (destruct (fits t room); [rewrite W; reflexivity|destruct W as (r2 & s2 & ->); exists r2, s2; reflexivity]). }
  intros nl r st before room text. specialize (G nl r st before room). cbv zeta in G. fold text in G. unfold fits in G.
  split; intro H; destruct (Nat.leb_spec (List.length text) room); try lia; exact G.
Qed.
(** a record that holds its content (a pair) can be written again after a failure: it is
    unchanged, and the second attempt writes the whole text *)
Theorem C64_retry_of_held_content : forall v hs ct body errs nl (st st2 : stream) (before : bytes) (room : nat),
  let r := new_warc v hs (Some (ct, body)) errs CF_none in
  exists o stored text, write_calls put_full nl r st (before, room) = (o, r, st, stored) /\
    write_to None nl r st2 = (Ret tt, r, st2, text) /\ write_to None nl r st = (Ret tt, r, st, text).
Proof.
  intros v hs ct body errs nl st st2 k room r. unfold write_calls, warc_calls. cbn [r new_warc with_cf r_cf has_cf andb r_class r_headers rec_content r_content].
  rewrite put_all_full. destruct (fits _ room).
  - rewrite put_all_full. destruct (fits _ _); do 3 eexists; (split; [reflexivity|split; reflexivity]).
  - do 3 eexists. split; [reflexivity|split; reflexivity].
Qed.

Lemma yields_nonempty rd : Forall (fun p => p <> []) rd -> yields rd = concat rd.
Proof. induction 1 as [|p rd Hp _ IH]; [reflexivity|]. cbn [yields concat]. destruct p; [contradiction|]. rewrite IH. reflexivity. Qed.
Lemma rd_read_nonempty rd n d rd' : 0 < n -> Forall (fun p => p <> []) rd -> rd_read rd n = (d, rd') ->
  concat rd = d ++ concat rd' /\ Forall (fun p => p <> []) rd' /\ (d = [] -> rd = [] /\ rd' = []) /\
  List.length (concat rd') + List.length rd' + (if Nat.eqb (List.length d) 0 then 0 else 1) <= List.length (concat rd) + List.length rd.
Proof.
  intros Hn Hf. destruct rd as [|p ps]; cbn [rd_read].
  - intros [= <- <-]. cbn. repeat split; auto.
  - destruct (Nat.leb_spec (List.length p) n) as [H|H]; intros [= <- <-].
    + inversion Hf as [|? ? Hp Hps]; subst. split; [reflexivity|split; [exact Hps|split; [intro; contradiction|]]]. cbn [concat List.length]. rewrite app_length. unfold bytes in *; destruct (Nat.eqb _ 0); lia.
    + inversion Hf as [|? ? Hp Hps]; subst. cbn [concat]. rewrite app_assoc, firstn_skipn. split; [reflexivity|split; [|split]].
      * constructor; [|exact Hps]. intro E. apply (f_equal (@List.length _)) in E. rewrite skipn_length in E. cbn in E. lia.
      * intro H0. exfalso. apply (f_equal (@List.length _)) in H0. rewrite firstn_length_le in H0 by lia. cbn in H0. lia.
      * cbn [List.length]. rewrite !app_length, skipn_length, firstn_length_le by lia. unfold bytes in *. destruct (Nat.eqb_spec n 0); lia.
Qed.
Lemma copy_full_own fuel : forall rd st s room, List.length (concat rd) + List.length rd < fuel -> Forall (fun p => p <> []) rd ->
  exists rd' used, concat rd = used ++ concat rd' /\ Forall (fun p => p <> []) rd' /\
  (List.length (concat rd) <= room /\ concat rd' = [] /\
     copy_calls put_full fuel (CF_own rd) st (s, room) = (Ret tt, CF_own rd', st, (s ++ concat rd, room - List.length (concat rd))) \/
   room < List.length (concat rd) /\ room < List.length used /\
     copy_calls put_full fuel (CF_own rd) st (s, room) = (Raise EOSError, CF_own rd', st, (s ++ firstn room (concat rd), 0))).
Proof.
  induction fuel as [|fuel IH]; intros rd st s room Hl Hf; [lia|]. cbn [copy_calls cf_read].
  destruct (rd_read rd (Z.to_nat CHUNK_SIZE)) as [d rd1] eqn:E.
  apply rd_read_nonempty in E as (Ec & Hf1 & He & Hl1); [|unfold CHUNK_SIZE; lia|exact Hf].
  destruct d as [|x d].
  - destruct (He eq_refl) as [-> ->]. exists [], []. cbn. split; [reflexivity|split; [constructor|left]]. rewrite app_nil_r, Nat.sub_0_r. repeat split; lia.
  - set (b := x :: d) in *. cbn [Nat.eqb] in Hl1. replace (Nat.eqb (List.length b) 0) with false in Hl1 by reflexivity.
    rewrite Ec, app_length. unfold put_full at 1 3. destruct (Nat.leb_spec (List.length b) room) as [H|H].
    + destruct (IH rd1 st (s ++ b) (room - List.length b)) as (rd' & used & E1 & E2 & E3); [unfold bytes in *; lia|exact Hf1|].
      exists rd', (b ++ used). rewrite E1, <- app_assoc. split; [reflexivity|split; [exact E2|]]. rewrite <- E1.
      destruct E3 as [(A & B & C)|(A & B & C)]; [left|right].
      * split; [lia|split; [exact B|]]. etransitivity; [exact C|]. rewrite <- app_assoc. do 2 f_equal. lia.
      * rewrite app_length. split; [lia|split; [lia|]]. etransitivity; [exact C|]. rewrite firstn_over, <- app_assoc by exact H. reflexivity.
    + exists rd1, b. split; [reflexivity|split; [exact Hf1|right]]. rewrite firstn_under by exact H. repeat split; lia.
Qed.
(** A record whose content comes from a file: after a failure it can be written again without
    an error, but the bytes of the content read so far - at least one more than were stored -
    are missing from the second text, which is shorter than its Content-Length says. *)
Theorem C64_retry_of_a_content_file : forall v hs (rd : reader) (st st2 : stream) (before : bytes) (room : nat),
  Forall (fun p => p <> []) rd -> 
  let r := new_warc v hs None [] (CF_own rd) in
  let text := head_text v hs ++ concat rd ++ CRLF ++ CRLF in
  room < List.length text ->
  exists r' r'' used unread, write_calls put_full CRLF r st (before, room) = (Raise EOSError, r', st, (before ++ firstn room text, 0)) /\
    concat rd = used ++ unread /\
    (if Nat.ltb room (List.length (head_text v hs)) then used = []
     else unread = [] \/ room - List.length (head_text v hs) < List.length used) /\
    r_headers r' = hs /\ write_to None CRLF r' st2 = (Ret tt, r'', st2, head_text v hs ++ unread ++ CRLF ++ CRLF).
Proof.
  intros v hs rd st st2 k room Hf r text Hroom.
  assert (Hretry : forall rd', Forall (fun p => p <> []) rd' -> exists r'', write_to None CRLF (mkrec (RWarc v) hs [] None (CF_own rd') true) st2 =
     (Ret tt, r'', st2, head_text v hs ++ concat rd' ++ CRLF ++ CRLF)).
  { intros rd' Hf'. destruct (write_own None v hs [] rd' st2) as (rd2 & E). eexists. rewrite yields_nonempty in E by exact Hf'. exact E. }
  assert (Hh : v ++ CRLF ++ write_headers true CRLF hs ++ CRLF = head_text v hs) by (rewrite write_headers_all; unfold head_text; rewrite <- ?app_assoc; reflexivity).
  set (h := v ++ CRLF ++ write_headers true CRLF hs) in *.
  assert (Hht : head_text v hs = h ++ CRLF) by (rewrite <- Hh; unfold h; rewrite <- !app_assoc; reflexivity).
  unfold write_calls, warc_calls. cbn [r new_warc with_cf r_cf has_cf r_valid negb andb r_class r_headers].
  rewrite put_all_full, head_calls_text. fold h. unfold text in *. rewrite Hht in *. clear Hh Hht. rewrite <- !app_assoc in *.
  destruct (fits h room) eqn:F1; [apply fits_le in F1|].
  - rewrite put_all_full. cbn [concat]. rewrite app_nil_r, firstn_over by exact F1.
    destruct (fits CRLF (room - List.length h)) eqn:F2; [apply fits_le in F2|apply fits_lt in F2].
    + destruct (copy_full_own (cf_fuel (CF_own rd) st) rd st ((k ++ h) ++ CRLF) (room - List.length h - List.length CRLF) (Nat.lt_succ_diag_r _) Hf)
        as (rd' & used & E1 & E2 & [(A & B & C)|(A & B & C)]); unfold bytes in *; rewrite C; cbn [with_valid with_cf r_class r_headers r_errors r_content r_cf r_valid].
      * rewrite put_all_full. cbn [concat]. rewrite app_nil_r. rewrite (firstn_over CRLF (concat rd ++ CRLF ++ CRLF)) by exact F2. rewrite (firstn_over (concat rd)) by exact A.
        destruct (fits (CRLF ++ CRLF) _) eqn:F4; [apply fits_le in F4; rewrite !app_length in *; lia|].
        destruct (Hretry rd' E2) as (r'' & E). do 2 eexists. exists used, (concat rd'). split; [rewrite <- !app_assoc; reflexivity|]. split; [exact E1|].
        split; [|split; [reflexivity|rewrite !app_assoc in *; exact E]].
        destruct (Nat.ltb_spec room (List.length (h ++ CRLF))) as [X|X]; [rewrite app_length in X; lia|]. left. exact B.
      * rewrite (firstn_over CRLF (concat rd ++ CRLF ++ CRLF)) by exact F2. rewrite (firstn_under (concat rd)) by exact A.
        destruct (Hretry rd' E2) as (r'' & E). do 2 eexists. exists used, (concat rd'). split; [rewrite <- !app_assoc; reflexivity|]. split; [exact E1|].
        split; [|split; [reflexivity|rewrite !app_assoc in *; exact E]].
        destruct (Nat.ltb_spec room (List.length (h ++ CRLF))) as [X|X]; [rewrite app_length in X; lia|]. right. rewrite app_length. lia.
    + rewrite firstn_under by exact F2. destruct (Hretry rd Hf) as (r'' & E). do 2 eexists. exists [], (concat rd). split; [rewrite <- !app_assoc; reflexivity|]. split; [reflexivity|].
      split; [destruct (Nat.ltb room (List.length (h ++ CRLF))) eqn:X; [reflexivity|apply Nat.ltb_ge in X; rewrite app_length in X; lia]|split; [reflexivity|rewrite !app_assoc in *; exact E]].
  - apply fits_lt in F1. rewrite firstn_under by exact F1. destruct (Hretry rd Hf) as (r'' & E). do 2 eexists. exists [], (concat rd). split; [reflexivity|]. split; [reflexivity|].
    split; [destruct (Nat.ltb room (List.length (h ++ CRLF))) eqn:X; [reflexivity|apply Nat.ltb_ge in X; rewrite app_length in X; lia]|split; [reflexivity|rewrite !app_assoc in *; exact E]].
Qed.
Lemma copy_full_stream fuel : forall st left after s room, in_payload st left after -> List.length left < fuel ->
  exists st' used unread, left = used ++ unread /\ in_payload st' unread after /\
  (List.length left <= room /\ unread = [] /\
     copy_calls put_full fuel CF_stream st (s, room) = (Ret tt, CF_stream, st', (s ++ left, room - List.length left)) \/
   room < List.length left /\ room < List.length used /\
     copy_calls put_full fuel CF_stream st (s, room) = (Raise EOSError, CF_stream, st', (s ++ firstn room left, 0))).
Proof.
  induction fuel as [|fuel IH]; intros st lf after s room Hi Hl; [lia|]. cbn [copy_calls cf_read]. rewrite Z2Nat.id by (unfold CHUNK_SIZE; lia).
  assert (Hn : cop_nonneg (OpRead (Some CHUNK_SIZE))) by (cbn; unfold CHUNK_SIZE; lia).
  pose proof (run_cop_ok st lf after _ Hi Hn) as E. cbn [run_cop] in E. rewrite E.
  destruct (cop_result_prefix (OpRead (Some CHUNK_SIZE)) lf) as [l' El].
  pose proof (run_cop_keeps _ _ _ _ _ Hi Hn El) as Hk. cbn [run_cop] in Hk. rewrite E in Hk. cbn [snd] in Hk.
  match type of Hk with in_payload ?s1 _ _ => set (st1 := s1) in * end. clearbody st1. clear E.
  destruct (cop_result (OpRead (Some CHUNK_SIZE)) lf) as [|x d] eqn:Ed.
  - assert (lf = []) as ->. { cbn [cop_result] in Ed. destruct lf; [reflexivity|]. destruct (Z.to_nat CHUNK_SIZE) eqn:Ez; [unfold CHUNK_SIZE in Ez; lia|discriminate]. }
    cbn [app] in El. subst l'. exists st1, [], []. split; [reflexivity|split; [exact Hk|left]]. cbn. rewrite app_nil_r, Nat.sub_0_r. repeat split; lia.
  - set (b := x :: d) in *. rewrite El, app_length in Hl. assert (Hb : 0 < List.length b) by (cbn; lia).
    rewrite El, app_length. unfold put_full at 1 3. destruct (Nat.leb_spec (List.length b) room) as [H|H].
    + destruct (IH st1 l' after (s ++ b) (room - List.length b) Hk) as (st' & used & unread & E1 & E2 & E3); [lia|].
      exists st', (b ++ used), unread. rewrite <- app_assoc, <- E1. split; [reflexivity|split; [exact E2|]].
      destruct E3 as [(A & B & C)|(A & B & C)]; [left|right].
      * split; [lia|split; [exact B|]]. etransitivity; [exact C|]. rewrite <- app_assoc. do 2 f_equal. lia.
      * rewrite app_length. split; [lia|split; [lia|]]. etransitivity; [exact C|]. rewrite firstn_over, <- app_assoc by exact H. reflexivity.
    + exists st1, b, l'. split; [reflexivity|split; [exact Hk|right]]. rewrite firstn_under by exact H. repeat split; lia.
Qed.
(** the same for a record read from an archive: its unread payload is what the stream still
    has in front of it *)
Theorem C64_retry_of_a_record_read : forall (w : wrec) (st : stream) (after before : bytes) (room : nat),
  in_payload st (w_body w) after ->
  let text := wrec_text w ++ CRLF ++ CRLF in
  room < List.length text ->
  exists st' used unread, write_calls put_full CRLF (handed w) st (before, room) = (Raise EOSError, handed w, st', (before ++ firstn room text, 0)) /\
    w_body w = used ++ unread /\
    (if Nat.ltb room (List.length (head_text (w_version w) (w_headers w))) then used = []
     else unread = [] \/ room - List.length (head_text (w_version w) (w_headers w)) < List.length used) /\
    exists r'' st'', write_to None CRLF (handed w) st' = (Ret tt, r'', st'', head_text (w_version w) (w_headers w) ++ unread ++ CRLF ++ CRLF).
Proof.
  intros w st after k room Hi text Hroom. set (v := w_version w) in *. set (hs := w_headers w) in *.
  assert (Hretry : forall st2 unread, in_payload st2 unread after -> exists r'' st'', write_to None CRLF (handed w) st2 =
     (Ret tt, r'', st'', head_text v hs ++ unread ++ CRLF ++ CRLF)).
  { intros st2 unread H2. rewrite (write_handed None (handed w) v hs st2 unread after eq_refl eq_refl eq_refl eq_refl H2). do 2 eexists. reflexivity. }
  assert (Hht : head_text v hs = (v ++ CRLF ++ write_headers true CRLF hs) ++ CRLF) by (rewrite write_headers_all; unfold head_text; rewrite <- ?app_assoc; reflexivity).
  unfold write_calls, warc_calls. cbn [handed parsed_rec r_cf has_cf r_valid negb andb r_class r_headers].
  rewrite put_all_full, head_calls_text. unfold text in *. unfold wrec_text in *. fold v hs in Hroom |- *. rewrite Hht in *. clear Hht.
  set (h := v ++ CRLF ++ write_headers true CRLF hs) in *. rewrite <- !app_assoc in *.
  destruct (fits h room) eqn:F1; [apply fits_le in F1|].
  - rewrite put_all_full. cbn [concat]. rewrite app_nil_r, firstn_over by exact F1.
    destruct (fits CRLF (room - List.length h)) eqn:F2; [apply fits_le in F2|apply fits_lt in F2].
    + assert (Hfu : List.length (w_body w) < cf_fuel CF_stream st).
      { cbn [cf_fuel]. pose proof (rest_fuel st) as H. destruct Hi as [_ Hr]. rewrite Hr, app_length in H. lia. }
      destruct (copy_full_stream (cf_fuel CF_stream st) st _ after ((k ++ h) ++ CRLF) (room - List.length h - List.length CRLF) Hi Hfu)
        as (st' & used & unread & E1 & E2 & [(A & B & C)|(A & B & C)]); unfold bytes in *; rewrite C; cbn [with_valid with_cf r_class r_headers r_errors r_content r_cf r_valid].
      * rewrite put_all_full. cbn [concat]. rewrite app_nil_r. rewrite (firstn_over CRLF (w_body w ++ CRLF ++ CRLF)) by exact F2. rewrite (firstn_over (w_body w)) by exact A.
        destruct (fits (CRLF ++ CRLF) _) eqn:F4; [apply fits_le in F4; rewrite !app_length in *; lia|].
        exists st', used, unread. split; [rewrite <- !app_assoc; reflexivity|]. split; [exact E1|].
        split; [|destruct (Hretry st' unread E2) as (r'' & st'' & E); exists r'', st''; rewrite !app_assoc in *; exact E].
        destruct (Nat.ltb_spec room (List.length (h ++ CRLF))) as [X|X]; [rewrite app_length in X; lia|]. left. exact B.
      * rewrite (firstn_over CRLF (w_body w ++ CRLF ++ CRLF)) by exact F2. rewrite (firstn_under (w_body w)) by exact A.
        exists st', used, unread. split; [rewrite <- !app_assoc; reflexivity|]. split; [exact E1|].
        split; [|destruct (Hretry st' unread E2) as (r'' & st'' & E); exists r'', st''; rewrite !app_assoc in *; exact E].
        destruct (Nat.ltb_spec room (List.length (h ++ CRLF))) as [X|X]; [rewrite app_length in X; lia|]. right. rewrite app_length. lia.
    + rewrite firstn_under by exact F2. exists st, [], (w_body w). split; [rewrite <- !app_assoc; reflexivity|]. split; [reflexivity|].
      split; [destruct (Nat.ltb room (List.length (h ++ CRLF))) eqn:X; [reflexivity|apply Nat.ltb_ge in X; rewrite app_length in X; lia]|].
      destruct (Hretry st _ Hi) as (r'' & st'' & E); exists r'', st''; rewrite !app_assoc in *; exact E.
  - apply fits_lt in F1. rewrite firstn_under by exact F1. exists st, [], (w_body w). split; [reflexivity|]. split; [reflexivity|].
    split; [destruct (Nat.ltb room (List.length (h ++ CRLF))) eqn:X; [reflexivity|apply Nat.ltb_ge in X; rewrite app_length in X; lia]|].
    destruct (Hretry st _ Hi) as (r'' & st'' & E); exists r'', st''; rewrite !app_assoc in *; exact E.
Qed.

(** ** C65: a record stream cannot be written to *)
(** for every WARC record that write_to would write (nobody has used up its content), and for
    every byte string: AttributeError, and the stream, payload included, is as before *)
Theorem C65_stream_write_always_fails : forall (st : stream) (r : record) v, r_class r = RWarc v -> has_cf r = true -> r_valid r = true ->
  stream_write_to st (WRecord r) = (Raise EAttributeError, st).
Proof.
  intros st r v Hc Hf Hv. unfold stream_write_to, write_calls, warc_calls. rewrite Hf, Hv, Hc. cbn [negb andb].
  unfold head_calls. cbn [app put_all stream_put]. destruct (r_cf r); reflexivity.
Qed.
Theorem C65_stream_write_of_built_records : forall (st : stream) v hs content errs,
  stream_write_to st (WRecord (new_warc v hs content errs CF_none)) = (Raise EAttributeError, st).
Proof. intros. destruct content as [[ct b]|]; reflexivity. Qed.
Theorem C65_stream_write_of_bytes : forall (st : stream) (b : bytes), stream_write_to st (WBytes b) = (Raise EAttributeError, st).
Proof. reflexivity. Qed.
(** ARC records are accepted, and nothing is written *)
Theorem C65_arc_records_are_dropped : forall (st : stream) (r : record), (forall v, r_class r <> RWarc v) -> r_cf r <> CF_unset ->
  has_cf r = false \/ r_valid r = true -> stream_write_to st (WRecord r) = (Ret tt, st) /\ exists r', write_to None CRLF r st = (Ret tt, r', st, []).
Proof.
  intros st r Hc Hu Hv. unfold stream_write_to, write_calls, write_to, rec_write.
  assert (has_cf r && negb (r_valid r) = false) as -> by (destruct Hv as [->| ->]; [reflexivity|apply andb_false_r]).
  destruct (r_cf r); [congruence| | |]; (destruct (r_class r) as [v| |v raws]; [exfalso; exact (Hc v eq_refl)| |]; split; [reflexivity|eauto|reflexivity|eauto]).
Qed.

(** ** non-trivial cases: room for the header and four bytes of a content of eleven, given in two pieces *)
Definition full_record : record := new_warc (B "WARC/1.0") [(B "WARC-Type", B "resource"); (B "Content-Length", B "11")] None [] (CF_own [B "first"; B "second"]).
Definition no_stream : stream := new_stream SPlain (mkfile [] 0 true) PWarc.
Definition full_room : nat := List.length (head_text (B "WARC/1.0") [(B "WARC-Type", B "resource"); (B "Content-Length", B "11")]) + 4.
Example C64_case :
  Forall (fun p : bytes => p <> []) [B "first"; B "second"] /\
  full_room < List.length (snd (write_to None CRLF full_record no_stream)) /\
  exists r', write_calls put_full CRLF full_record no_stream ([], full_room) =
    (Raise EOSError, r', no_stream, (B "WARC/1.0" ++ CRLF ++ B "WARC-Type: resource" ++ CRLF ++ B "Content-Length: 11" ++ CRLF ++ CRLF ++ B "firs", 0)) /\
  snd (write_to None CRLF r' no_stream) = B "WARC/1.0" ++ CRLF ++ B "WARC-Type: resource" ++ CRLF ++ B "Content-Length: 11" ++ CRLF ++ CRLF ++ B "second" ++ CRLF ++ CRLF.
Proof.
  split; [repeat constructor; discriminate|]. split; [vm_compute; lia|]. eexists. split; vm_compute; reflexivity.
Qed.
Example C65_case : has_cf full_record = true /\ r_valid full_record = true /\ r_class full_record = RWarc (B "WARC/1.0") /\
  has_cf (handed cut_sample) = true /\ r_valid (handed cut_sample) = true.
Proof. repeat split. Qed.
