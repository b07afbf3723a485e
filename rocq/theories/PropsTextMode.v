(** C72: handles that give text, and the tools reading standard input. *)
From Verif Require Import TextMode StreamFacts Place PropsPlace.
From Verif Require Export TextMode.
From Coq Require Import String List Lia ZArith.
Open Scope list_scope.

(** ** Specification *)
(** a file object opened in text mode, such as sys.stdin: whatever its calls do (a call may also fail:
    bytes that cannot be decoded, a pipe that cannot tell its position, ...), they never give bytes *)
Definition text_mode {S} (h : handle S) : Prop :=
  (forall s x s', h_readline h s = (Ret x, s') -> exists t, x = PText t) /\
  (forall n s x s', h_read h n s = (Ret x, s') -> exists t, x = PText t).
(** how one call of readline comes out when its text is handed to a pattern over bytes *)
Definition after_readline {S A} (x : outcome pystr * S) : outcome A * S :=
  match x with
  | (Ret _, s) => (Raise ETypeError, s)
  | (Raise e, s) => (Raise e, s)
  | (Diverge, s) => (Diverge, s)
  end.

(** ** Lemmas *)
Lemma text_first_line {S} (h : handle S) fuel s : text_mode h ->
  h_first_line h (Datatypes.S fuel) false s = after_readline (h_readline h s).
Proof.
  intros [H _]. cbn [h_first_line andthen yields]. destruct (h_readline h s) as [[x|e|] s'] eqn:E; cbn [andthen after_readline]; [|reflexivity|reflexivity].
  destruct (H _ _ _ E) as [t ->]. reflexivity.
Qed.
Lemma text_read_record {S} (h : handle S) skip parse fuel s : text_mode h ->
  h_read_record h skip parse (Datatypes.S fuel) false (None, s) = match after_readline (h_readline h s) with (o, s') => (o, (None, s')) end.
Proof.
  intro H. unfold h_read_record. cbn [fst snd andthen yields]. rewrite (text_first_line h fuel s H). destruct (h_readline h s) as [[x|e|] s']; reflexivity.
Qed.

(** ** C72 *)
(** reading a record calls readline once and then raises *)
Theorem C72_text_handle_read : forall {S} (h : handle S) skip parse (lines : nat) (s : S), text_mode h ->
  h_read_record h skip parse (Datatypes.S lines) false (None, s) = match after_readline (h_readline h s) with (o, s') => (o, (None, s')) end.
Proof. intros. apply text_read_record. assumption. Qed.
(** and with offsets, tell once before *)
Theorem C72_text_handle_read_offsets : forall {S} (h : handle S) skip parse (lines : nat) (s : S), text_mode h ->
  h_read_record h skip parse (Datatypes.S lines) true (None, s) =
  match h_tell h s with
  | (Ret _, s1) => match after_readline (h_readline h s1) with (o, s') => (o, (None, s')) end
  | (Raise e, s1) => (Raise e, (None, s1))
  | (Diverge, s1) => (Diverge, (None, s1))
  end.
Proof.
  intros S h skip parse lines s [H _]. unfold h_read_record. cbn [fst snd andthen yields h_first_line]. destruct (h_tell h s) as [[n|e|] s1]; cbn [andthen yields]; [|reflexivity|reflexivity].
  destruct (h_readline h s1) as [[x|e|] s'] eqn:E; cbn [andthen after_readline]; [|reflexivity|reflexivity]. destruct (H _ _ _ E) as [t ->]. reflexivity.
Qed.
(** the tools reading standard input: whatever stands there, one line is taken, nothing is written and the
    run ends with TypeError (or with the failure of that one call) *)
Theorem C72_stdin_tools_always_fail : forall {S A} (h : handle S) skip parse (fuel lines : nat) (out : A) (s : S), text_mode h ->
  (forall body, dump_stdin h (fun s => h_readline h s) skip parse (Datatypes.S fuel) (Datatypes.S lines) body out s =
     match after_readline (h_readline h s) with (o, s') => (o, out, (None, s')) end) /\
  (forall body, extract_stdin h (fun s => h_readline h s) skip parse (Datatypes.S fuel) (Datatypes.S lines) body out s =
     match after_readline (h_readline h s) with (o, s') => (o, out, (None, s')) end) /\
  (forall body, copy_stdin h (fun s => h_readline h s) skip parse (Datatypes.S fuel) (Datatypes.S lines) body out s =
     match after_readline (h_readline h s) with (o, s') => (o, out, (None, s')) end).
Proof.
  intros S A h skip parse fuel lines out s H.
  repeat split; intro body; unfold dump_stdin, extract_stdin, copy_stdin, stdin_open; cbn [h_open andthen yields snd fst h_records h_iter];
    rewrite (text_read_record h skip parse lines s H); destruct (h_readline h s) as [[x|e|] s']; reflexivity.
Qed.
(** opening: 'auto' looks at the first two characters; unless the file is empty it then wants to step back
    relative to the current position, which files in text mode refuse *)
Definition refuses_step_back {S} (h : handle S) (e : exn) : Prop := forall n s, n <> 0%Z -> fst (h_seek_cur h n s) = Raise e.
Theorem C72_text_handle_auto : forall {S} (h : handle S) gz_line (c : aclass) (s s1 : S) (t : list N) (e : exn), refuses_step_back h e ->
  c <> AArchive -> h_read h 2 s = (Ret (PText t), s1) -> t <> [] ->
  fst (h_open h gz_line c false GAuto s) = Raise e.
Proof.
  intros S h gz_line c s s1 t e Hs Hc Hr Ht. assert (Hg : fst (h_is_gzip h s) = Raise e).
  { unfold h_is_gzip. rewrite Hr. cbn [andthen py_len]. specialize (Hs (- Z.of_nat (List.length t))%Z s1 ltac:(destruct t; [congruence|cbn; lia])).
    destruct (h_seek_cur h _ s1) as [o s2]. cbn [fst] in Hs. subst o. reflexivity. }
  unfold h_open. destruct c; [congruence| | |]; cbn [andthen yields]; destruct (h_is_gzip h s) as [o s2]; cbn [fst] in Hg; subst o; reflexivity.
Qed.
Theorem C72_text_handle_guess : forall {S} (h : handle S) gz_line (named : bool) (gz : gzmode) (s : S), text_mode h ->
  forall p s', h_open h gz_line AArchive named gz s <> (Ret p, s').
Proof.
  intros S h gz_line named gz s [H1 H2] p s' E. unfold h_open in E.
  assert (G : forall t s2, h_guess h gz_line s <> (Ret t, s2)).
  { intros t s2 G. unfold h_guess, h_is_gzip in G. destruct (h_tell h s) as [[n|e|] sa]; cbn [andthen] in G; try discriminate.
    destruct (h_read h 2 sa) as [[x|e|] sb] eqn:Er; cbn [andthen] in G; try discriminate. destruct (H2 _ _ _ _ Er) as [u ->]. cbn [py_len py_is] in G.
    destruct (h_seek_cur h _ sb) as [[[]|e|] sc]; cbn [andthen yields] in G; try discriminate.
    destruct (h_readline h sc) as [[x|e|] sd] eqn:El; cbn [andthen] in G; try discriminate. destruct (H1 _ _ _ El) as [v ->].
    destruct (h_seek h (Z.of_nat n) sd) as [[[]|e|] se]; cbn [andthen] in G; discriminate. }
  destruct (h_guess h gz_line s) as [[t|e|] s2]; cbn [andthen] in E; try discriminate. exact (G t s2 eq_refl).
Qed.
(** the same code on a binary file is the reader of the other properties *)
Lemma raw_read_data st n o st' : raw_read st n = (o, st') -> f_data (s_fh st') = f_data (s_fh st) /\ s_parser st' = s_parser st /\ s_kind st' = s_kind st.
Proof.
  unfold raw_read. destruct n as [n|].
  - unfold f_read. destruct (Z.ltb n 0).
    + destruct (Z.eqb n (-1) || negb (f_strict (s_fh st))); cbn; intro H; injection H as <- <-; auto.
    + intro H; injection H as <- <-; auto.
  - cbn. intro H; injection H as <- <-; auto.
Qed.
Lemma skip_loop_data fuel : forall st o st', skip_loop fuel st = (o, st') -> f_data (s_fh st') = f_data (s_fh st) /\ s_parser st' = s_parser st /\ s_kind st' = s_kind st.
Proof.
  induction fuel as [|fuel IH]; intros st o st'; cbn [skip_loop]; [intro H; injection H as <- <-; auto|].
  destruct (s_eoc st) as [e|]; [|intro H; injection H as <- <-; auto]. destruct (Z.ltb 0 e); [|intro H; injection H as <- <-; auto].
  destruct (raw_read st (Some (Z.min CHUNK_SIZE e))) as [[b|x|] s1] eqn:E; pose proof (raw_read_data _ _ _ _ E) as (D1 & D2 & D3).
  - destruct (Z.ltb (Z.of_nat (List.length b)) (Z.min CHUNK_SIZE e)); intro H; [injection H as <- <-; auto|]. destruct (IH _ _ _ H) as (X1 & X2 & X3). repeat split; congruence.
  - intro H; injection H as <- <-; auto.
  - intro H; injection H as <- <-; auto.
Qed.
Lemma bin_first_line fuel offsets : forall f,
  h_first_line bin_handle fuel offsets f =
  match blank_loop fuel f with
  | (Ret (n, l), f') => (Ret (if offsets then Some n else None, PBytes l), f')
  | (Raise e, f') => (Raise e, f')
  | (Diverge, f') => (Diverge, f')
  end.
Proof.
  induction fuel as [|fuel IH]; intro f; [reflexivity|]. cbn [h_first_line blank_loop bin_handle h_tell h_readline].
  destruct offsets; cbn [andthen yields]; destruct (f_readline f) as [l f']; cbn [andthen py_match]; destruct (re_test crlf_line_rx l); try (rewrite IH); reflexivity.
Qed.
Theorem C72_binary_handle_read : forall (st : stream) (offsets : bool), s_kind st = SPlain -> s_parser st = PWarc ->
  h_read_record bin_handle (bin_skip PWarc) (bin_parse PWarc) (file_fuel (s_fh st)) offsets (of_stream st) =
  match read_record st offsets with (o, st') => (o, of_stream st') end.
Proof.
  intros st offsets Hk Hp. unfold h_read_record, read_record.
  assert (Es : as_stream PWarc (of_stream st) = st) by (destruct st; cbn in *; subst; reflexivity).
  assert (K : forall st1, f_data (s_fh st1) = f_data (s_fh st) -> s_parser st1 = PWarc -> s_kind st1 = SPlain ->
    match h_first_line bin_handle (file_fuel (s_fh st)) offsets (s_fh st1) with
    | (Ret (offset, line), s) => andthen (bin_parse PWarc (None, s) offset line) (fun x st => let '(r, errs, off) := x in yields (off, r, errs) st)
    | (Raise e, s) => (Raise e, (None, s))
    | (Diverge, s) => (Diverge, (None, s))
    end =
    match (let st2 := set_eoc st1 None in
      match skip_blank (s_fh st2) with
      | (Ret (pos, line), f3) =>
          let st3 := set_fh st2 f3 in
          let offset := match s_kind st with SPlain => if offsets then Some pos else None | _ => None end in
          match run_parser st3 offset line with
          | (Ret (r, errs, offset'), st4) =>
              match s_kind st with
              | SPlain => (Ret (offset', r, errs), st4)
              | SGzipRecord => (Ret (None, r, errs), st4)
              | SGzipFile => (Raise ENameError, st4)
              end
          | (Raise e, st4) => (Raise e, st4)
          | (Diverge, st4) => (Diverge, st4)
          end
      | (Raise e, f3) => (Raise e, set_fh st2 f3)
      | (Diverge, f3) => (Diverge, set_fh st2 f3)
      end) with (o, st') => (o, of_stream st') end).
  { intros st1 Hd Hp1 Hk1. cbn zeta. rewrite bin_first_line. unfold skip_blank.
    assert (Ef : file_fuel (s_fh (set_eoc st1 None)) = file_fuel (s_fh st)) by (unfold file_fuel; cbn; rewrite Hd; reflexivity). rewrite Ef.
    change (s_fh (set_eoc st1 None)) with (s_fh st1). destruct (blank_loop (file_fuel (s_fh st)) (s_fh st1)) as [[[n l]|e|] f3]; [|reflexivity|reflexivity].
    rewrite Hk. cbn [bin_parse]. assert (E3 : as_stream PWarc (None, f3) = set_fh (set_eoc st1 None) f3) by (destruct st1; cbn in *; subst; reflexivity).
    rewrite E3. destruct (run_parser _ _ l) as [[[[r errs] off]|e|] st4]; reflexivity. }
  unfold of_stream at 1. cbn [fst]. destruct (s_eoc st) as [d|] eqn:Ee.
  - unfold bin_skip. fold (of_stream st). change (s_eoc st, s_fh st) with (of_stream st). rewrite Es. unfold skip_to_eoc.
    destruct (skip_loop (file_fuel (s_fh st)) st) as [[[]|e|] st1] eqn:E; pose proof (skip_loop_data _ _ _ _ E) as (D1 & D2 & D3); cbn [andthen]; [|reflexivity|reflexivity].
    change (snd (of_stream st1)) with (s_fh st1). apply K; congruence.
  - cbn [andthen yields]. change (snd (of_stream st)) with (s_fh st). apply K; congruence.
Qed.
Theorem C72_binary_handle_open : forall gunzip (c : aclass) (named : bool) (gz : gzmode) (f : file),
  match h_open bin_handle (bin_gz_line gunzip) c named gz f with
  | (Ret (p, k), f') => open_stream gunzip c named gz f = Ret (new_stream k (match k with SPlain => f' | _ => decompressed gunzip f' end) p)
  | (Raise e, _) => open_stream gunzip c named gz f = Raise e
  | (Diverge, _) => False
  end.
Proof.
  intros gunzip c named gz f.
  assert (G : forall g, h_is_gzip bin_handle g = let '(b, g') := is_gzip_file g in (Ret b, g')).
  { intro g. unfold h_is_gzip, is_gzip_file, bin_handle, h_read, h_seek_cur. unfold f_read. cbn [Z.ltb Z.compare omap andthen py_len py_is].
    set (d := firstn (Z.to_nat 2) (f_rest g)). unfold f_seek_cur, f_seek.
    assert (E : (Z.of_nat (f_pos (f_advance g (List.length d))) + - Z.of_nat (List.length d) <? 0)%Z = false) by (apply Z.ltb_ge; cbn; lia).
    rewrite E. reflexivity. }
  assert (FT : forall l line, h_first_type l (PBytes line) = Ret (first_type l line)).
  { induction l as [|[r t] l IH]; intro line; [reflexivity|]. cbn [h_first_type first_type py_match]. destruct (re_test r line); [reflexivity|apply IH]. }
  assert (GG : h_guess bin_handle (bin_gz_line gunzip) f = let '(t, f') := guess_record_type gunzip f in (Ret t, f')).
  { unfold h_guess, guess_record_type. cbn [bin_handle h_tell andthen]. fold bin_handle. rewrite G. destruct (is_gzip_file f) as [b f1]. cbn [andthen].
    destruct b; cbn [bin_gz_line andthen h_readline h_seek bin_handle f_readline]; unfold f_seek;
    replace (Z.ltb (Z.of_nat (f_tell f)) 0) with false by (symmetry; apply Z.ltb_ge; lia); cbn [andthen]; rewrite FT; reflexivity. }
  unfold h_open, open_stream. destruct c; cbn [andthen yields].
  { rewrite GG. destruct (guess_record_type gunzip f) as [[[|]|] f1]; cbn [andthen yields]; [| |reflexivity];
    (destruct gz; cbn [andthen yields]; [destruct named; cbn [andthen yields]; [reflexivity|]; rewrite G; destruct (is_gzip_file f1) as [[|] f2]; reflexivity|reflexivity|reflexivity|reflexivity]). }
  all: (destruct gz; cbn [andthen yields]; [destruct named; cbn [andthen yields]; [reflexivity|]; rewrite G; destruct (is_gzip_file f) as [[|] f2]; reflexivity|reflexivity|reflexivity|reflexivity]).
Qed.

(** ... and so are the tools on a binary file: what they would do with sys.stdin.buffer.  A body (of
    Tools.v and Dump.v) sees the stream over the file; it reads from it but neither changes the file
    nor puts another parser in. *)
Definition same_file (st st' : stream) : Prop := f_data (s_fh st') = f_data (s_fh st) /\ s_kind st' = s_kind st /\ s_parser st' = s_parser st.
Definition on_handle {A X Y} (body : A -> stream -> X -> outcome Y * A * stream) : A -> option Z * file -> X -> outcome Y * A * (option Z * file) :=
  fun a st x => match body a (as_stream PWarc st) x with (o, a', st') => (o, a', of_stream st') end.
Lemma read_record_same st b : s_kind st = SPlain -> s_parser st = PWarc -> same_file st (snd (read_record st b)).
Proof.
  intros Hk Hp. destruct (proj1 (read_record_later st b)) as (D & _ & K & _ & P). split; [exact D|]. split; [exact K|]. rewrite Hp in P |- *. destruct (s_parser (snd (read_record st b))); [reflexivity|destruct P..].
Qed.
Lemma as_of st : s_kind st = SPlain -> s_parser st = PWarc -> as_stream PWarc (of_stream st) = st.
Proof. intros Hk Hp. destruct st; cbn in *; subst; reflexivity. Qed.
Lemma bin_iter {A} (body : A -> stream -> record -> outcome unit * A * stream) lines : (forall a st r, s_parser st = PWarc -> same_file st (snd (body a st r))) ->
  forall fuel a st, s_kind st = SPlain -> s_parser st = PWarc -> file_fuel (s_fh st) = lines ->
  h_iter bin_handle (bin_skip PWarc) (bin_parse PWarc) fuel lines (on_handle body) a (of_stream st) =
  match iter_loop fuel body a st with (o, a', st') => (o, a', of_stream st') end.
Proof.
  intro Hb. induction fuel as [|fuel IH]; intros a st Hk Hp Hl; [reflexivity|]. cbn [h_iter iter_loop]. rewrite <- Hl at 1. rewrite (C72_binary_handle_read st false Hk Hp).
  pose proof (read_record_same st false Hk Hp) as (D1 & D2 & D3). destruct (read_record st false) as [[[[off [r|]] errs]|e|] st1]; cbn [snd] in *; try reflexivity.
  - unfold on_handle at 1. rewrite as_of by congruence. assert (P1 : s_parser st1 = PWarc) by congruence. pose proof (Hb a st1 r P1) as (E1 & E2 & E3). destruct (body a st1 r) as [[[u|e|] a'] st2]; cbn [snd] in *; try reflexivity.
    apply IH; try congruence. rewrite <- Hl. unfold file_fuel. rewrite E1, D1. reflexivity.
  - destruct errs; reflexivity.
Qed.
Lemma bin_records {A} (body : A -> stream -> item -> outcome bool * A * stream) lines offsets : (forall a st it, s_parser st = PWarc -> same_file st (snd (body a st it))) ->
  forall fuel limit a st, s_kind st = SPlain -> s_parser st = PWarc -> file_fuel (s_fh st) = lines ->
  h_records bin_handle (bin_skip PWarc) (bin_parse PWarc) fuel lines limit offsets (on_handle body) a (of_stream st) =
  match read_loop fuel limit offsets body a st with (o, a', st') => (o, a', of_stream st') end.
Proof.
  intro Hb. induction fuel as [|fuel IH]; intros limit a st Hk Hp Hl; [destruct limit as [[|]|]; reflexivity|]. cbn [h_records read_loop]. pose proof (C72_binary_handle_read st offsets Hk Hp) as R. rewrite Hl in R. rewrite !R.
  pose proof (read_record_same st offsets Hk Hp) as (D1 & D2 & D3). destruct (read_record st offsets) as [[it|e|] st1]; cbn [snd] in *; [|destruct limit as [[|]|]; reflexivity..].
  unfold on_handle at 1 3. rewrite as_of by congruence. assert (P1 : s_parser st1 = PWarc) by congruence. pose proof (Hb a st1 it P1) as (E1 & E2 & E3). destruct (body a st1 it) as [[[[|]|e|] a'] st2]; cbn [snd] in *; [|destruct limit as [[|]|]; reflexivity..].
  assert (Hl2 : file_fuel (s_fh st2) = lines) by (rewrite <- Hl; unfold file_fuel; rewrite E1, D1; reflexivity).
  destruct (snd (fst it)); [|destruct limit as [[|]|]; reflexivity]. rewrite !IH by congruence. destruct limit as [[|n]|]; reflexivity.
Qed.
Theorem C72_binary_stdin_tools : forall {A} (f : file) (out : A) gz_line,
  let st := new_stream SPlain f PWarc in let lines := file_fuel f in
  (forall body, (forall a st r, s_parser st = PWarc -> same_file st (snd (body a st r))) ->
     copy_stdin bin_handle gz_line (bin_skip PWarc) (bin_parse PWarc) lines lines (on_handle body) out f = match for_records body out st with (o, out', st') => (o, out', of_stream st') end) /\
  (forall body, (forall a st it, s_parser st = PWarc -> same_file st (snd (body a st it))) ->
     dump_stdin bin_handle gz_line (bin_skip PWarc) (bin_parse PWarc) lines lines (on_handle body) out f = match for_read_records None false body out st with (o, out', st') => (o, out', of_stream st') end) /\
  (forall body, (forall a st it, s_parser st = PWarc -> same_file st (snd (body a st it))) ->
     extract_stdin bin_handle gz_line (bin_skip PWarc) (bin_parse PWarc) lines lines (on_handle body) out f = match for_read_records (Some 1) false body out st with (o, out', st') => (o, out', of_stream st') end).
Proof.
  intros A f out gz_line. cbn zeta. unfold copy_stdin, dump_stdin, extract_stdin, stdin_open. cbn [h_open andthen yields snd fst].
  change (@None Z, f) with (of_stream (new_stream SPlain f PWarc)).
  split; [intros body Hb; apply (bin_iter body _ Hb); reflexivity|]. split; intros body Hb; apply (bin_records body _ _ Hb); reflexivity.
Qed.

(** the body of warc2warc is such a body *)
Example C72_copying_on_a_binary_stdin gz f gz_line : let st := new_stream SPlain f PWarc in
  copy_stdin bin_handle gz_line (bin_skip PWarc) (bin_parse PWarc) (file_fuel f) (file_fuel f) (on_handle (emit gz)) [] f = match for_records (emit gz) [] st with (o, out', st') => (o, out', of_stream st') end.
Proof.
  cbn zeta. apply C72_binary_stdin_tools. intros a st r Hp. destruct (proj2 (emit_ends gz a st r)) as (D & _ & K & _ & P). split; [exact D|]. split; [exact K|].
  rewrite Hp in P |- *. destruct (s_parser (snd (emit gz a st r))); [reflexivity|destruct P..].
Qed.

(** a concrete handle: the lines of a text, given one by one; stepping back raises *)
Definition lines_handle : handle (list (list N)) :=
  mkhandle _ (fun s => (Raise EOSError, s)) (fun _ s => (Ret (PText (firstn 2 (hd [] s))), s))
    (fun s => (Ret (PText (hd [] s)), tl s)) (fun _ s => (Raise EOSError, s)) (fun n s => (if Z.eqb n 0 then Ret tt else Raise EOSError, s)).
Example C72_case : text_mode lines_handle /\ refuses_step_back lines_handle EOSError /\
  copy_stdin lines_handle (fun s => h_readline lines_handle s) (fun st => (Ret tt, st)) (fun st _ _ => (Raise EValueError, st)) 5 5
    (fun a st _ => (Ret tt, a, st)) (B "nothing") [B "WARC/1.0"; B "Content-Length: 0"] = (Raise ETypeError, B "nothing", (None, [B "Content-Length: 0"])) /\
  fst (h_open lines_handle (fun s => h_readline lines_handle s) AWarc false GAuto [B "WARC/1.0"]) = Raise EOSError.
Proof.
  split; [split; [intros s x s' H; injection H as <- _; eauto|intros n s x s' H; injection H as <- _; eauto]|].
  split; [intros n s Hn; cbn; destruct (Z.eqb_spec n 0); [contradiction|reflexivity]|]. split; vm_compute; reflexivity.
Qed.
