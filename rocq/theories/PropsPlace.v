(** C59: what is read depends only on the bytes after the position.
    C03 (rest): seeking while a record is open.
    C60: the reading loops and the tools end. *)
From Verif Require Export Place ToolFacts.
From Coq Require Import String List Lia.
Open Scope list_scope.

(** ** C59 *)
(** an item with its offset [k] further on *)
Definition moved_item (k : nat) (it : item) : item :=
  match it with (o, r, e) => (option_map (fun n => n + k) o, r, e) end.
Lemma moved_item_eq k it : moved_item k it = item_shift k it.
Proof. destruct it as [[[n|] r] e]; reflexivity. Qed.

(** For a WARC, ARC or mixed reader in any parser state, any file and any position, and
    any calls on the contents: the session gives what it gives at the start of a file
    that holds only the bytes from there on, with the offsets moved. *)
Theorem C59_place_does_not_matter : forall (kind : skind) (parser : parser) (strict offsets : bool) (data : bytes) (n : nat) (uses : list (list cop)),
  fst (session offsets uses (new_stream kind (mkfile data n strict) parser)) =
  omap (map (fun p => (moved_item n (fst p), snd p)))
       (fst (session offsets uses (new_stream kind (mkfile (skipn n data) 0 strict) parser))).
Proof.
  intros kind parser strict b data n uses.
  assert (S : sim n (new_stream kind (mkfile (skipn n data) 0 strict) parser) (new_stream kind (mkfile data n strict) parser)) by (repeat split).
  pose proof (session_sim n b uses _ _ S) as X.
  destruct (session b uses (new_stream kind (mkfile (skipn n data) 0 strict) parser)) as [x s1].
  destruct (session b uses (new_stream kind (mkfile data n strict) parser)) as [x' s1'].
  unfold simr in X. cbn [fst snd] in *. destruct x, x'; try absurd_hyp; cbn [omap]; try reflexivity; destruct X as [X _]; rewrite X; try reflexivity.
Qed.
(** so a preface of any bytes changes nothing but the offsets *)
Corollary C59_any_preface : forall (kind : skind) (parser : parser) (strict offsets : bool) (preface text : bytes) (uses : list (list cop)),
  fst (session offsets uses (new_stream kind (mkfile (preface ++ text) (List.length preface) strict) parser)) =
  omap (map (fun p => (moved_item (List.length preface) (fst p), snd p)))
       (fst (session offsets uses (new_stream kind (mkfile text 0 strict) parser))).
Proof. intros. rewrite C59_place_does_not_matter. rewrite skipn_app, skipn_all, Nat.sub_diag. reflexivity. Qed.
(** warcextract at an offset of any uncompressed file: what it prints, and how it ends,
    is what it does at the start of a file cut there *)
Lemma extract_loop_sim k : forall st st', sim k st st' ->
  fst (for_read_records (Some 1) false dump_body [] st') = fst (for_read_records (Some 1) false dump_body [] st).
Proof.
  intros st st' H. unfold for_read_records.
  assert (F : forall st, exists f, file_fuel (s_fh st) = S f) by (intro s; unfold file_fuel; eauto).
  destruct (F st) as [f ->]. destruct (F st') as [f' ->]. cbn [read_loop].
  pose proof (read_record_sim k st st' false H) as X. destruct (read_record st false) as [x s1]. destruct (read_record st' false) as [x' s1'].
  unfold simr in X. cbn [fst snd] in X. destruct x as [it|e|], x' as [it'|e'|]; try absurd_hyp; [|destruct X as [-> _]; reflexivity|reflexivity].
  destruct X as [-> S1]. destruct it as [[o [r|]] errs]; cbn [item_shift dump_body].
  - unfold rec_content. destruct (r_content r) as [[ct [d|]]|].
    + reflexivity.
    + reflexivity.
    + destruct (r_cf r); [reflexivity|reflexivity| |reflexivity].
      pose proof (stream_read_sim k s1 s1' None S1) as Y. destruct (stream_read s1 None) as [y s2]. destruct (stream_read s1' None) as [y' s2'].
      unfold simr in Y. cbn [fst snd] in Y. destruct y as [d|e|], y' as [d'|e'|]; try absurd_hyp; [|destruct Y as [-> _]; reflexivity|reflexivity].
      destruct Y as [<- _]. reflexivity.
  - destruct errs; reflexivity.
Qed.
Theorem C59_extract_place : forall gunzip (i j : input) (data : bytes) (n : nat),
  plain_file i data -> plain_file j (skipn n data) ->
  warcextract gunzip i (Z.of_nat n) = warcextract gunzip j 0%Z.
Proof.
  intros gunzip i j data n Hi Hj. unfold warcextract. rewrite (open_plain _ _ _ Hi), (open_plain _ _ _ Hj). unfold first_seek. cbn [new_stream s_kind].
  unfold stream_seek, f_seek. assert (E : (Z.of_nat n <? 0)%Z = false) by lia. rewrite E, Nat2Z.id. cbn [Z.ltb Z.compare Z.to_nat].
  cbn [set_fh s_fh f_data f_strict s_kind s_eoc s_parser].
  match goal with |- (match ?a with _ => _ end) = (match ?b with _ => _ end) => assert (X : fst a = fst b) end.
  { apply (extract_loop_sim n). repeat split. }
  destruct (for_read_records _ _ _ _ _) as [[o out] s1]. destruct (for_read_records _ _ _ _ _) as [[o' out'] s1']. cbn [fst] in X. injection X as -> ->. reflexivity.
Qed.

(** ** C03: seek does not forget the open record *)
(** [left] is what is unread of the payload of the open record.  After a seek to [n] the
    next record is not looked for at [n] but that many bytes further on; when the file
    has no that many bytes after [n], reading raises. *)
Theorem C03_seek_inside_a_record : forall (st : stream) (left after : bytes) (n : nat) (b : bool),
  s_eoc st = Some (Z.of_nat (List.length left)) -> f_rest (s_fh st) = left ++ after ->
  let data := f_data (s_fh st) in
  fst (read_record (snd (stream_seek st (Z.of_nat n))) b) =
  if Nat.eqb (List.length left) 0 || Nat.leb (n + List.length left) (List.length data)
  then fst (read_record (new_stream (s_kind st) (mkfile data (n + List.length left) (f_strict (s_fh st))) (s_parser st)) b)
  else Raise E_short.
Proof.
  intros st left after n b He Hr. cbn zeta. unfold stream_seek, f_seek. assert (E : (Z.of_nat n <? 0)%Z = false) by lia. rewrite E, Nat2Z.id. cbn [snd].
  set (st2 := set_fh st _). set (d := f_data (s_fh st)) in *.
  assert (Hlen : List.length left = 0 \/ n + List.length left <= List.length d ->
     fst (read_record st2 b) = fst (read_record (new_stream (s_kind st) (mkfile d (n + List.length left) (f_strict (s_fh st))) (s_parser st)) b)).
  { intro H. set (l2 := firstn (List.length left) (skipn n d)).
    assert (El : List.length l2 = List.length left) by (unfold l2; rewrite firstn_length, skipn_length; lia).
    rewrite (read_record_skip st2 b l2 (skipn (List.length left) (skipn n d))).
    - rewrite El. reflexivity.
    - rewrite El. exact He.
    - symmetry. apply firstn_skipn. }
  destruct (Nat.eqb_spec (List.length left) 0) as [E0|E0]; cbn [orb]; [apply Hlen; left; exact E0|].
  destruct (Nat.leb_spec (n + List.length left) (List.length d)) as [E1|E1]; [apply Hlen; right; exact E1|].
  destruct (read_record_short st2 b (List.length left) He) as [s' ->]; [|reflexivity].
  change (rest st2) with (skipn n d). rewrite skipn_length. lia.
Qed.
Example C03_seek_inside_case :
  let text := B "WARC/1.0" ++ CRLF ++ B "Content-Length: 3" ++ CRLF ++ CRLF ++ B "abc" ++ CRLF ++ CRLF in
  let st := new_stream SPlain (mkfile text 0 true) PWarc in
  let st1 := snd (read_record st true) in
  s_eoc st1 = Some 3%Z /\ f_rest (s_fh st1) = B "abc" ++ CRLF ++ CRLF /\
  exists r, fst (read_record st true) = Ret (Some 0, Some r, []) /\
  fst (read_record (snd (stream_seek st1 0)) true) = Ret (Some (List.length text), None, [ErrIgnored (B "C/1.0" ++ CRLF); ErrIgnored (B "Content-Length: 3" ++ CRLF); ErrIgnored (B "abc" ++ CRLF)]).
Proof. vm_compute. split; [reflexivity|]. split; [reflexivity|]. eexists. split; reflexivity. Qed.

(** ** C60 *)
(** the texts on which the WARC reader never returns (C09) *)
Definition hangs (text : bytes) : Prop :=
  exists before vline block pfx ws tag num nl,
     lines_of text = before ++ vline :: block /\
     Forall (fun x => version_line x = false) before /\ List.length (junk_lines before) <= 5 /\
     version_as vline pfx ws tag num nl /\ In num known_numbers /\ stuck false block.
Lemma read_record_hangs st b : s_parser st = PWarc -> s_kind st <> SGzipFile -> fst (read_record st b) = Diverge ->
  exists n, hangs (skipn n (rest st)).
Proof.
  intros Hp Hk Hd.
  assert (Hfresh : exists st1, later st st1 /\ s_eoc st1 = None /\ read_record st1 b = read_record st b).
  { destruct (s_eoc st) as [e|] eqn:He; [|exists st; split; [apply later_refl|split; [exact He|reflexivity]]].
    pose proof (later_skip (file_fuel (s_fh st)) st) as L. change (skip_loop (file_fuel (s_fh st)) st) with (skip_to_eoc st) in L.
    unfold read_record in Hd |- *. rewrite He in *.
    destruct (skip_to_eoc_sim 0 st st ltac:(repeat split; lia)) as [_ Hn].
    destruct (skip_to_eoc st) as [[u|e'|] s1] eqn:Es; cbn [fst snd] in *; [|discriminate|contradiction].
    exists (set_eoc s1 None). split; [eapply later_trans; [exact L|apply later_eoc]|]. split; [reflexivity|].
    cbn [set_eoc s_eoc s_fh s_kind s_parser]. replace (s_kind s1) with (s_kind st) by (symmetry; apply L). reflexivity. }
  destruct Hfresh as (st1 & L & He & E). rewrite <- E in Hd. destruct (later_rest_eq st st1 L) as (n & Hn & _). exists n. rewrite <- Hn.
  assert (Hp1 : s_parser st1 = PWarc). { destruct L as (_ & _ & _ & _ & C). rewrite Hp in C. destruct (s_parser st1); try absurd_hyp. reflexivity. }
  assert (Hk1 : s_kind st1 <> SGzipFile) by (replace (s_kind st1) with (s_kind st) by (symmetry; apply L); exact Hk).
  pose proof (read_record_any st1 b He Hp1 Hk1) as H. cbn zeta in H.
  assert (W : wparse (lines_of (rest st1)) = WHang).
  { destruct (wparse (lines_of (rest st1))); try (rewrite H in Hd; discriminate); try (rewrite Hd in H; discriminate). reflexivity. }
  apply wparse_hang in W; [|apply lines_ok]. destruct W as (a & b0 & c & d & e & f & g & h & H1 & (H2 & H3) & H4). exists a, b0, c, d, e, f, g, h. tauto.
Qed.

(** A caller's loop over read_records: for every item it makes some calls on the
    contents, chosen from the item and its own state, and updates its state with their
    results (also when one of them raised); it may stop at any item. *)
Definition reading_body {S} (plan : S -> item -> list cop) (next : S -> item -> outcome (list bytes) -> bool * S)
    (s : S) (st : stream) (it : item) : outcome bool * S * stream :=
  let '(d, st') := run_cops st (plan s it) in
  let '(go, s') := next s it d in (Ret go, s', st').
Lemma reading_later {S} plan next : forall (s : S) st it, later st (snd (reading_body plan next s st it)).
Proof. intros s st it. unfold reading_body. pose proof (later_cops (plan s it) st) as H. destruct (run_cops st (plan s it)) as [d st']. destruct (next s it d). exact H. Qed.
Lemma reading_ends {S} plan next : forall (s : S) st it, fst (fst (reading_body plan next s st it)) <> Diverge.
Proof. intros s st it. unfold reading_body. destruct (run_cops st (plan s it)) as [d st']. destruct (next s it d). discriminate. Qed.

(** Such a loop ends on every file, unless somewhere in the file there is text on which
    the reader hangs. *)
Theorem C60_warc_loops_end : forall (S : Type) (plan : S -> item -> list cop) (next : S -> item -> outcome (list bytes) -> bool * S)
    (limit : option nat) (offsets : bool) (s : S) (kind : skind) (data : bytes) (n : nat) (strict : bool),
  kind <> SGzipFile -> (forall k, ~ hangs (skipn k data)) ->
  fst (fst (for_read_records limit offsets (reading_body plan next) s (new_stream kind (mkfile data n strict) PWarc))) <> Diverge.
Proof.
  intros S plan next limit b s kind data n strict Hk Hn H. set (st := new_stream kind (mkfile data n strict) PWarc) in *.
  destruct (read_loop_ends (reading_body plan next) b (reading_later plan next) _ limit s st (rest_fuel st) H) as [(st' & L & D)|(s' & st' & it & L & D)].
  - assert (Hp : s_parser st' = PWarc). { destruct L as (_ & _ & _ & _ & C). destruct (s_parser st'); try absurd_hyp. reflexivity. }
    assert (Hk' : s_kind st' <> SGzipFile) by (replace (s_kind st') with kind by (symmetry; apply L); exact Hk).
    destruct (read_record_hangs st' b Hp Hk' D) as [k X]. unfold rest, f_rest in X. replace (f_data (s_fh st')) with data in X by (symmetry; apply L).
    rewrite skipn_skipn' in X. exact (Hn _ X).
  - exact (reading_ends plan next s' st' it D).
Qed.
(** On ARC files the loops always end. *)
Theorem C60_arc_loops_end : forall (S : Type) (plan : S -> item -> list cop) (next : S -> item -> outcome (list bytes) -> bool * S)
    (limit : option nat) (offsets : bool) (s : S) (kind : skind) (data : bytes) (n : nat) (strict : bool) (a : arcstate),
  fst (fst (for_read_records limit offsets (reading_body plan next) s (new_stream kind (mkfile data n strict) (PArc a)))) <> Diverge.
Proof.
  intros S plan next limit b s kind data n strict a H. set (st := new_stream kind (mkfile data n strict) (PArc a)) in *.
  destruct (read_loop_ends (reading_body plan next) b (reading_later plan next) _ limit s st (rest_fuel st) H) as [(st' & L & D)|(s' & st' & it & L & D)].
  - destruct L as (_ & _ & _ & _ & C). destruct (s_parser st') as [|a'|a'] eqn:Ep; try absurd_hyp. exact (read_record_arc_ends st' b a' Ep D).
  - exact (reading_ends plan next s' st' it D).
Qed.
(** iteration: for record in stream *)
Theorem C60_iteration_ends : forall (S : Type) (plan : S -> record -> list cop) (next : S -> record -> outcome (list bytes) -> outcome unit * S)
    (s : S) (kind : skind) (data : bytes) (n : nat) (strict : bool),
  kind <> SGzipFile -> (forall k, ~ hangs (skipn k data)) -> (forall s r d, fst (next s r d) <> Diverge) ->
  fst (fst (for_records (fun s st r => let '(d, st') := run_cops st (plan s r) in let '(o, s') := next s r d in (o, s', st')) s
     (new_stream kind (mkfile data n strict) PWarc))) <> Diverge.
Proof.
  intros S plan next s kind data n strict Hk Hn Ho H. set (st := new_stream kind (mkfile data n strict) PWarc) in *.
  set (body := fun s st r => _) in H.
  assert (Hl : forall s st r, later st (snd (body s st r))).
  { intros s0 st0 r. unfold body. pose proof (later_cops (plan s0 r) st0) as X. destruct (run_cops st0 (plan s0 r)) as [d st']. destruct (next s0 r d). exact X. }
  destruct (iter_loop_ends body Hl _ s st (rest_fuel st) H) as [(st' & L & D)|(s' & st' & r & L & D)].
  - assert (Hp : s_parser st' = PWarc). { destruct L as (_ & _ & _ & _ & C). destruct (s_parser st'); try absurd_hyp. reflexivity. }
    assert (Hk' : s_kind st' <> SGzipFile) by (replace (s_kind st') with kind by (symmetry; apply L); exact Hk).
    destruct (read_record_hangs st' false Hp Hk' D) as [k X]. unfold rest, f_rest in X. replace (f_data (s_fh st')) with data in X by (symmetry; apply L).
    rewrite skipn_skipn' in X. exact (Hn _ X).
  - unfold body in D. destruct (run_cops st' (plan s' r)) as [d st2]. pose proof (Ho s' r d). destruct (next s' r d). exact (H0 D).
Qed.
Lemma hangs_wparse text : hangs text <-> wparse (lines_of text) = WHang.
Proof.
  rewrite (wparse_hang _ (lines_ok text)). unfold hangs, before_version. split.
  - intros (a & b0 & c & d & e & f & g & h & H). exists a, b0, c, d, e, f, g, h. tauto.
  - intros (a & b0 & c & d & e & f & g & h & H). exists a, b0, c, d, e, f, g, h. tauto.
Qed.
(** the condition holds of a file with junk, a record, and a record whose text is cut off
    in its length *)
Definition odd_file : bytes :=
  B "junk" ++ CRLF ++ B "WARC/1.0" ++ CRLF ++ B "Content-Length: 3" ++ CRLF ++ CRLF ++ B "a:" ++ [LF] ++ CRLF ++ CRLF ++
  B "WARC/0.17" ++ CRLF ++ B "Content-Length: 9" ++ CRLF.
Example C60_case : forall k, ~ hangs (skipn k odd_file).
Proof.
  intros k H. apply hangs_wparse in H.
  assert (F : forallb (fun k => match wparse (lines_of (skipn k odd_file)) with WHang => false | _ => true end) (seq 0 (List.length odd_file)) = true) by (vm_compute; reflexivity).
  destruct (Nat.ltb_spec k (List.length odd_file)) as [Hk|Hk].
  - rewrite forallb_forall in F. specialize (F k ltac:(apply in_seq; lia)). unfold bytes in *. rewrite H in F. discriminate.
  - rewrite skipn_all2 in H by exact Hk. discriminate.
Qed.
(** and the loop that reads everything ends by raising *)
Example C60_case_run :
  fst (fst (for_read_records None true (reading_body (fun _ _ => [OpRead None]) (fun s _ d => (true, s ++ [d])))
    [] (new_stream SPlain (mkfile odd_file 0 true) PWarc))) = Raise E_short.
Proof. vm_compute. reflexivity. Qed.

(** *** the tools *)
Lemma read_ends st c : fst (stream_read st c) <> Diverge.
Proof. unfold stream_read, raw_read, f_read. destruct (bounded st c) as [n|]; [|discriminate]. destruct (n <? 0)%Z; [destruct (_ || _)|]; discriminate. Qed.
Lemma content_ends r st : fst (fst (rec_content r st)) <> Diverge /\ later st (snd (rec_content r st)).
Proof.
  unfold rec_content. destruct (r_content r); [split; [discriminate|apply later_refl]|]. destruct (r_cf r); try (split; [discriminate|apply later_refl]).
  pose proof (read_ends st None) as X. pose proof (later_read st None) as Y. destruct (stream_read st None) as [[d|e|] s1]; cbn [fst snd] in *; split; try discriminate; try exact Y. contradiction.
Qed.
Lemma content_type_ends r st : fst (fst (rec_content_type r st)) <> Diverge /\ later st (snd (rec_content_type r st)).
Proof.
  unfold rec_content_type. pose proof (content_ends r st) as [X Y]. destruct (rec_content r st) as [[[c|e|] r'] s1]; cbn [fst snd omap] in *; [| |contradiction];
  (destruct (r_content r); [split; [discriminate|exact Y]|]; destruct (get_header r (ct_name r)); split; try discriminate; try exact Y; apply later_refl).
Qed.
Lemma content_length_ends r st : fst (fst (rec_content_length r st)) <> Diverge /\ later st (snd (rec_content_length r st)).
Proof.
  unfold rec_content_length. pose proof (content_ends r st) as [X Y]. destruct (rec_content r st) as [[[[ct [d|]]|e|] r'] s1]; cbn [fst snd bind] in *; try contradiction;
  (destruct (r_content r); [split; [discriminate|exact Y]|]; destruct (get_header r (cl_name r)); [destruct (py_int 10 b)|]; cbn [fst snd]; split; try discriminate; try exact Y; apply later_refl).
Qed.
Lemma copy_later f : forall c st out, later st (snd (fst (copy_loop f c st out))).
Proof.
  induction f as [|f IH]; intros c st out; [apply later_refl|]. cbn [copy_loop]. unfold cf_read. destruct c as [| | |rd]; try apply later_refl.
  - pose proof (later_read st (Some (Z.of_nat (Z.to_nat CHUNK_SIZE)))) as X. destruct (stream_read st _) as [[[|x d]|e|] s1]; cbn [snd fst] in *; try exact X. eapply later_trans; [exact X|apply IH].
  - destruct (rd_read rd _) as [[|x d] rd']; [apply later_refl|apply IH].
Qed.
Lemma read_some_less st c d s1 : stream_read st c = (Ret d, s1) -> d <> [] -> List.length (rest s1) < List.length (rest st).
Proof.
  intros E Hd.
  assert (X : exists n, s1 = count_down (adv st n) n /\ n = List.length d /\ n <= List.length (rest st)).
  { unfold stream_read, raw_read, f_read, f_read_all in E. destruct (bounded st c) as [n|].
    - destruct (n <? 0)%Z; [destruct (_ || _); [|discriminate]|]; injection E as <- <-.
      + exists (List.length (rest st)). repeat split; unfold rest; lia.
      + eexists. split; [reflexivity|]. split; [reflexivity|]. rewrite firstn_length. unfold rest. lia.
    - injection E as <- <-. exists (List.length (rest st)). repeat split; unfold rest; lia. }
  destruct X as (n & -> & Hn & Hle). change (rest (count_down ?a ?b)) with (rest a). rewrite rest_adv, skipn_length. destruct d; [contradiction|]. cbn [List.length] in Hn. lia.
Qed.
Lemma copy_ends f : forall st out, List.length (rest st) < f -> fst (fst (fst (copy_loop f CF_stream st out))) <> Diverge.
Proof.
  induction f as [|f IH]; intros st out H; [lia|]. cbn [copy_loop cf_read].
  pose proof (read_ends st (Some (Z.of_nat (Z.to_nat CHUNK_SIZE)))) as X.
  destruct (stream_read st _) as [[[|x d]|e|] s1] eqn:E; cbn [fst] in *; try discriminate; [|contradiction].
  apply IH. pose proof (read_some_less _ _ _ _ E ltac:(discriminate)). lia.
Qed.
Lemma rd_less rd n x d rd' : rd_read rd n = (x :: d, rd') -> List.length (concat rd') + List.length rd' < List.length (concat rd) + List.length rd.
Proof.
  destruct rd as [|p ps]; cbn [rd_read]; [discriminate|]. destruct (Nat.leb_spec (List.length p) n) as [H|H]; intro E.
  - injection E as -> <-. cbn [concat List.length]. rewrite app_length. cbn. lia.
  - injection E as E <-. cbn [concat List.length]. rewrite !app_length, skipn_length. destruct n; [discriminate|]. lia.
Qed.
Lemma copy_own_ends f : forall rd st out, List.length (concat rd) + List.length rd < f -> fst (fst (fst (copy_loop f (CF_own rd) st out))) <> Diverge.
Proof.
  induction f as [|f IH]; intros rd st out H; [lia|]. cbn [copy_loop cf_read]. destruct (rd_read rd _) as [[|x d] rd'] eqn:E; [discriminate|].
  apply IH. apply rd_less in E. unfold reader, bytes in *. lia.
Qed.
Lemma write_ends gz nl r st :
  fst (fst (fst (write_to gz nl r st))) <> Diverge /\ later st (snd (fst (write_to gz nl r st))).
Proof.
  unfold write_to. destruct (r_cf r) as [| | |rd] eqn:Ec; [split; [discriminate|apply later_refl]| | |];
  (destruct (has_cf r && negb (r_valid r)); [split; [discriminate|apply later_refl]|]; unfold rec_write; destruct (r_class r); [|split; [discriminate|apply later_refl]..];
   unfold warc_write; destruct (has_cf r) eqn:Eh).
  - unfold has_cf in Eh. rewrite Ec in Eh. discriminate.
  - pose proof (content_ends r st) as [X Y]. destruct (rec_content r st) as [[[[ct bf]|e|] r'] s1]; cbn [fst snd] in *; [| |contradiction]; (split; [discriminate|exact Y]).
  - rewrite Ec. cbn [cf_fuel]. match goal with |- context [copy_loop ?f CF_stream st ?o] => pose proof (copy_ends f st o (rest_fuel st)) as X; pose proof (copy_later f CF_stream st o) as Y; destruct (copy_loop f CF_stream st o) as [[[[u|e|] c'] s1] o1] end;
    cbn [fst snd] in *; [| |contradiction]; (split; [discriminate|exact Y]).
  - unfold has_cf in Eh. rewrite Ec in Eh. discriminate.
  - rewrite Ec. unfold cf_fuel. match goal with |- context [copy_loop ?f (CF_own rd) st ?o] => pose proof (copy_own_ends f rd st o (Nat.lt_succ_diag_r _)) as X; pose proof (copy_later f (CF_own rd) st o) as Y; destruct (copy_loop f (CF_own rd) st o) as [[[[u|e|] c'] s1] o1] end;
    cbn [fst snd] in *; [| |contradiction]; (split; [discriminate|exact Y]).
  - unfold has_cf in Eh. rewrite Ec in Eh. discriminate.
Qed.
(** every write ends *)
Theorem C60_writing_ends : forall gz nl (r : record) (st : stream), fst (fst (fst (write_to gz nl r st))) <> Diverge.
Proof. intros. apply write_ends. Qed.

Lemma input_holds gunzip i : exists text st, file_holds gunzip i text /\ open_input gunzip i = Ret st /\ s_parser st = PWarc /\ s_kind st <> SGzipFile /\ f_data (s_fh st) = text.
Proof.
  destruct (endswith (B ".gz") (in_name i)) eqn:E1.
  - apply endswith_iff in E1. assert (H : gz_file gunzip i (gunzip (in_data i))) by (split; [left; exact E1|reflexivity]).
    exists (gunzip (in_data i)). eexists. split; [right; exact H|]. split; [apply (open_gz _ _ _ H)|]. repeat split. discriminate.
  - destruct (startswith [31; 139]%N (in_data i)) eqn:E2.
    + apply startswith_iff in E2. assert (H : gz_file gunzip i (gunzip (in_data i))) by (split; [right; exact E2|reflexivity]).
      exists (gunzip (in_data i)). eexists. split; [right; exact H|]. split; [apply (open_gz _ _ _ H)|]. repeat split. discriminate.
    + assert (H : plain_file i (in_data i)).
      { split; [|split; [|reflexivity]].
        - intros t E. assert (endswith (B ".gz") (in_name i) = true) by (apply endswith_iff; eauto). congruence.
        - intros t E. assert (startswith [31; 139]%N (in_data i) = true) by (apply startswith_iff; eauto). congruence. }
      exists (in_data i). eexists. split; [left; exact H|]. split; [apply (open_plain _ _ _ H)|]. repeat split. discriminate.
Qed.
(** a file, compressed or not, in which nothing makes the reader hang *)
Definition readable (gunzip : bytes -> bytes) (i : input) : Prop :=
  forall text k, file_holds gunzip i text -> ~ hangs (skipn k text).
Lemma over_files_ends {S} gunzip (use : S -> bytes -> stream -> outcome unit * S) files :
  (forall s name st, s_parser st = PWarc -> s_kind st <> SGzipFile -> (forall k, ~ hangs (skipn k (f_data (s_fh st)))) -> fst (use s name st) <> Diverge) ->
  Forall (readable gunzip) files -> forall s, fst (over_files gunzip use files s) <> Diverge.
Proof.
  intros Hu Hf. induction Hf as [|i files Hi _ IH]; intro s; cbn [over_files]; [discriminate|].
  destruct (input_holds gunzip i) as (text & st & Hh & -> & Hp & Hk & Hd).
  pose proof (Hu s (in_name i) st Hp Hk ltac:(intro k; rewrite Hd; apply Hi; exact Hh)) as X.
  destruct (use s (in_name i) st) as [[u|e|] s']; cbn [fst] in *; [apply IH|discriminate|contradiction].
Qed.
Lemma loop_ends {S} (body : S -> stream -> item -> outcome bool * S * stream) limit b s st :
  (forall s st it, fst (fst (body s st it)) <> Diverge /\ later st (snd (body s st it))) ->
  s_parser st = PWarc -> s_kind st <> SGzipFile -> (forall k, ~ hangs (skipn k (f_data (s_fh st)))) ->
  fst (fst (for_read_records limit b body s st)) <> Diverge.
Proof.
  intros Hb Hp Hk Hn H.
  destruct (read_loop_ends body b (fun s st it => proj2 (Hb s st it)) _ limit s st (rest_fuel st) H) as [(st' & L & D)|(s' & st' & it & L & D)].
  - assert (Hp' : s_parser st' = PWarc). { destruct L as (_ & _ & _ & _ & C). rewrite Hp in C. destruct (s_parser st'); try absurd_hyp. reflexivity. }
    assert (Hk' : s_kind st' <> SGzipFile) by (replace (s_kind st') with (s_kind st) by (symmetry; apply L); exact Hk).
    destruct (read_record_hangs st' b Hp' Hk' D) as [k X]. unfold rest, f_rest in X. replace (f_data (s_fh st')) with (f_data (s_fh st)) in X by (symmetry; apply L).
    rewrite skipn_skipn' in X. exact (Hn _ X).
  - exact (proj1 (Hb s' st' it) D).
Qed.
Lemma iter_ends {S} (body : S -> stream -> record -> outcome unit * S * stream) s st :
  (forall s st r, fst (fst (body s st r)) <> Diverge /\ later st (snd (body s st r))) ->
  s_parser st = PWarc -> s_kind st <> SGzipFile -> (forall k, ~ hangs (skipn k (f_data (s_fh st)))) ->
  fst (fst (for_records body s st)) <> Diverge.
Proof.
  intros Hb Hp Hk Hn H.
  destruct (iter_loop_ends body (fun s st it => proj2 (Hb s st it)) _ s st (rest_fuel st) H) as [(st' & L & D)|(s' & st' & it & L & D)].
  - assert (Hp' : s_parser st' = PWarc). { destruct L as (_ & _ & _ & _ & C). rewrite Hp in C. destruct (s_parser st'); try absurd_hyp. reflexivity. }
    assert (Hk' : s_kind st' <> SGzipFile) by (replace (s_kind st') with (s_kind st) by (symmetry; apply L); exact Hk).
    destruct (read_record_hangs st' false Hp' Hk' D) as [k X]. unfold rest, f_rest in X. replace (f_data (s_fh st')) with (f_data (s_fh st)) in X by (symmetry; apply L).
    rewrite skipn_skipn' in X. exact (Hn _ X).
  - exact (proj1 (Hb s' st' it) D).
Qed.
Lemma valid_body_ends c st it : fst (fst (valid_body c st it)) <> Diverge /\ later st (snd (valid_body c st it)).
Proof.
  unfold valid_body, complain. destruct it as [[[o|] [r|]] [|e es]]; try (split; [discriminate|apply later_refl]);
  destruct (r_errors r); split; try discriminate; apply later_refl.
Qed.
Lemma index_body_ends name out st it : fst (fst (index_body name out st it)) <> Diverge /\ later st (snd (index_body name out st it)).
Proof.
  unfold index_body. destruct it as [[o [r|]] es]; [|split; [discriminate|apply later_refl]].
  pose proof (content_type_ends r st) as [X Y]. destruct (rec_content_type r st) as [[[ct|e|] r1] s1]; cbn [fst snd] in *; [|split; [discriminate|exact Y]|contradiction].
  pose proof (content_length_ends r1 s1) as [X2 Y2]. destruct (rec_content_length r1 s1) as [[[n|e|] r2] s2]; cbn [fst snd] in *; [| |contradiction];
  (split; [discriminate|eapply later_trans; eassumption]).
Qed.
Lemma emit_ends gz out st r : fst (fst (emit gz out st r)) <> Diverge /\ later st (snd (emit gz out st r)).
Proof. unfold emit. pose proof (write_ends gz CRLF r st) as [X Y]. destruct (write_to gz CRLF r st) as [[[o r'] s1] d]. split; assumption. Qed.
(** warcvalid, warcindex and warc2warc end on all files, well-formed or not, except when
    one of them makes the reader hang *)
Theorem C60_tools_end : forall gunzip http_gz unzlib ungzip gz (files : list input),
  Forall (readable gunzip) files ->
  warcvalid gunzip files <> Diverge /\ fst (warcindex gunzip files) <> Diverge /\
  fst (warc2warc gunzip http_gz unzlib ungzip gz false files) <> Diverge.
Proof.
  intros gunzip hg uz ug gz files Hf. repeat split.
  - unfold warcvalid. pose proof (over_files_ends gunzip valid_file files) as X.
    assert (fst (over_files gunzip valid_file files true) <> Diverge).
    { apply X; [|exact Hf]. intros s name st Hp Hk Hn. unfold valid_file. pose proof (loop_ends valid_body None true s st valid_body_ends Hp Hk Hn) as Y.
      destruct (for_read_records None true valid_body s st) as [[o c] st']. exact Y. }
    destruct (over_files gunzip valid_file files true) as [[u|e|] [|]]; cbn [fst] in H; try discriminate; contradiction.
  - unfold warcindex. apply over_files_ends; [|exact Hf]. intros s name st Hp Hk Hn. unfold index_file.
    pose proof (loop_ends (index_body name) None true s st (index_body_ends name) Hp Hk Hn) as Y. destruct (for_read_records None true (index_body name) s st) as [[o c] st']. exact Y.
  - unfold warc2warc. apply over_files_ends; [|exact Hf]. intros s name st Hp Hk Hn. unfold each_record.
    assert (Y : fst (fst (for_records (w2w_process hg uz ug gz false) s st)) <> Diverge).
    { apply iter_ends; try assumption. intros s0 st0 r. unfold w2w_process. cbn [andb]. apply emit_ends. }
    destruct (for_records (w2w_process hg uz ug gz false) s st) as [[o c] st']. exact Y.
Qed.
Example C60_tools_case : Forall (readable (fun d => d)) [mkin (B "a.warc") odd_file; mkin (B "b.warc.gz") odd_file].
Proof.
  assert (H : forall i, in_data i = odd_file -> readable (fun d => d) i).
  { intros i Hi text k [(_ & _ & <-)|(_ & <-)]; rewrite Hi; apply C60_case. }
  repeat constructor; apply H; reflexivity.
Qed.
