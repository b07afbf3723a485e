(** C94: from the index to the record, on the command line *)
From Verif Require Export Cli PropsPayload.
From Coq Require Import String List Lia ZArith.
Open Scope list_scope.

(** ** Specification *)
Definition COMMA : N := 44.
(** what stands behind the last colon of the argument of warcpayload: an offset, or an offset and a length *)
Inductive place_text : bytes -> Z -> option Z -> Prop :=
| PlaceOffset t o : ~ In COMMA t -> py_int 10 t = Some o -> place_text t o None
| PlaceBoth a b o l : ~ In COMMA a -> py_int 10 a = Some o -> py_int 10 b = Some l -> place_text (a ++ [COMMA] ++ b) o (Some l).
(** an index line: file name and offset, and more *)
Definition line_of (line name offset : bytes) : Prop := exists more, line = name ++ [SP] ++ offset ++ [SP] ++ more.

(** ** Lemmas *)
Lemma rsplit_none sep s : ~ In sep s <-> rsplit_once sep s = None.
Proof.
  induction s as [|c t IH]; cbn [rsplit_once In]; [tauto|]. destruct (rsplit_once sep t) as [[a b]|] eqn:E.
  - split; [|discriminate]. intro H. exfalso. assert (X : ~ In sep t) by tauto. apply IH in X. discriminate.
  - destruct (N.eqb_spec c sep) as [->|N]; [split; [tauto|discriminate]|]. split; [auto|]. intros _ [H|H]; [contradiction|]. apply IH in H; [contradiction|reflexivity].
Qed.
Lemma rsplit_last sep a b : ~ In sep b -> rsplit_once sep (a ++ [sep] ++ b) = Some (a, b).
Proof.
  intro H. apply rsplit_none in H. induction a as [|c a IH]; cbn [app rsplit_once].
  - rewrite H, N.eqb_refl. reflexivity.
  - cbn [app] in IH. rewrite IH. reflexivity.
Qed.
Lemma split_comma s : ~ In COMMA s -> split_once 44 s = None.
Proof. induction s as [|c t IH]; cbn [split_once In]; [reflexivity|]. intro H. destruct (N.eqb_spec c 44) as [->|N]; [tauto|]. rewrite IH by tauto. reflexivity. Qed.
Lemma split_comma_at a b : ~ In COMMA a -> split_once 44 (a ++ [COMMA] ++ b) = Some (a, b).
Proof.
  induction a as [|c a IH]; intro H; cbn [app split_once]; [reflexivity|]. destruct (N.eqb_spec c 44) as [->|N]; [exfalso; apply H; left; reflexivity|].
  cbn [app] in IH. rewrite IH by (intro X; apply H; right; exact X). reflexivity.
Qed.
Lemma split_comma_parts s a b : split_once 44 s = Some (a, b) -> s = a ++ [COMMA] ++ b /\ ~ In COMMA a.
Proof.
  revert a. induction s as [|c t IH]; intros a E; cbn [split_once] in E; [discriminate|]. destruct (N.eqb_spec c 44) as [->|N].
  - injection E as <- <-. split; [reflexivity|auto].
  - destruct (split_once 44 t) as [[x y]|]; [|discriminate]. injection E as <- <-. destruct (IH x eq_refl) as [-> H]. split; [reflexivity|]. intros [X|X]; [exact (N X)|exact (H X)].
Qed.
Lemma split_comma_none s : split_once 44 s = None -> ~ In COMMA s.
Proof.
  induction s as [|c t IH]; cbn [split_once In]; [auto|]. destruct (N.eqb_spec c 44) as [->|N]; [discriminate|]. destruct (split_once 44 t) as [[x y]|]; [discriminate|].
  intros _ [X|X]; [exact (N X)|exact (IH eq_refl X)].
Qed.
Lemma digits_free c n : (c < 48 \/ 57 < c)%N -> ~ In c (dec_nat n).
Proof.
  intros Hc Hi. unfold dec_nat in Hi. pose proof (dec_N_digits (N.of_nat n) c Hi) as H. unfold is_digit in H. apply Bool.andb_true_iff in H as [H1 H2].
  apply N.leb_le in H1, H2. lia.
Qed.
Lemma split_all_line sep l rest : ~ In sep l -> split_all sep (l ++ [sep] ++ rest) = l :: split_all sep rest.
Proof.
  induction l as [|c l IH]; intro H; cbn [app split_all]; [rewrite N.eqb_refl; reflexivity|]. destruct (N.eqb_spec c sep) as [->|N]; [exfalso; apply H; left; reflexivity|].
  cbn [app] in IH. rewrite IH by (intro X; apply H; right; exact X). reflexivity.
Qed.
Lemma split_all_lines sep ls : Forall (fun l => ~ In sep l) ls -> split_all sep (concat (map (fun l => l ++ [sep]) ls)) = ls ++ [[]].
Proof. induction 1 as [|l ls H Hs IH]; [reflexivity|]. cbn [map concat]. rewrite <- app_assoc, split_all_line by exact H. rewrite IH. reflexivity. Qed.

Lemma free_by c s : existsb (N.eqb c) s = false -> ~ In c s.
Proof. intros H Hi. assert (X : existsb (N.eqb c) s = true) by (apply existsb_exists; exists c; split; [exact Hi|apply N.eqb_refl]). congruence. Qed.

Section Cli.
Variable gunzip : bytes -> bytes.
Variable client : bytes -> outcome bytes.
Variable files : bytes -> option bytes.
Variable far : bytes -> Z -> option Z -> outcome unit * bytes.
Variable from_stdin : outcome unit * bytes.
Notation payload := (payload_main gunzip client files far).
Notation extract := (extract_main gunzip files far from_stdin).
Notation index := (index_main gunzip files).
(** a name of a local file *)
Definition local (name : bytes) : Prop := startswith (B "s3://") name = false.

(** ** The argument of warcpayload *)
Lemma payload_arg_reads name place : ~ In COLON place ->
  (forall o l, place_text place o l -> payload_arg (name ++ [COLON] ++ place) = Ret (name, o, l)) /\
  ((forall o l, ~ place_text place o l) -> payload_arg (name ++ [COLON] ++ place) = Raise EValueError).
Proof.
  intro H. unfold payload_arg. rewrite (rsplit_last _ _ _ H). split.
  - intros o l P. destruct P as [t o Hc Ho|a b o l Hc Ho Hl].
    + rewrite (split_comma _ Hc). unfold int_arg. rewrite Ho. reflexivity.
    + rewrite (split_comma_at a b Hc). unfold int_arg. rewrite Ho, Hl. reflexivity.
  - intro P. destruct (split_once 44 place) as [[a b]|] eqn:E.
    + apply split_comma_parts in E as [-> Ha]. unfold int_arg. destruct (py_int 10 a) as [o|] eqn:Eo; [|reflexivity]. destruct (py_int 10 b) as [l|] eqn:El; [|reflexivity].
      exfalso. exact (P o (Some l) (PlaceBoth a b o l Ha Eo El)).
    + unfold int_arg. destruct (py_int 10 place) as [o|] eqn:Eo; [|reflexivity]. exfalso. apply (P o None). constructor; [|exact Eo].
      apply split_comma_none, E.
Qed.
Theorem C94_payload_argument : forall (name place : bytes) (more : list bytes), ~ In COLON place ->
  (forall o l data, place_text place o l -> local name -> files name = Some data ->
     payload ((name ++ B ":" ++ place) :: more) = warcpayload gunzip client (mkin name data) o) /\
  (forall o l, place_text place o l -> local name -> files name = None -> payload ((name ++ B ":" ++ place) :: more) = (Raise EOSError, [])) /\
  ((forall o l, ~ place_text place o l) -> payload ((name ++ B ":" ++ place) :: more) = (Raise EValueError, [])).
Proof.
  intros name place more H. change (B ":") with [COLON]. destruct (payload_arg_reads name place H) as [H1 H2]. unfold payload_main, with_file. repeat split.
  - intros o l data P L F. rewrite (H1 o l P), L, F. reflexivity.
  - intros o l P L F. rewrite (H1 o l P), L, F. reflexivity.
  - intro P. rewrite (H2 P). reflexivity.
Qed.
Theorem C94_payload_bad_argument : forall (arg : bytes) (more : list bytes), ~ In COLON arg -> payload (arg :: more) = (Raise EValueError, []) /\ payload [] = (Raise EIndexError, []).
Proof. intros arg more H. split; [|reflexivity]. unfold payload_main, payload_arg. apply rsplit_none in H. rewrite H. reflexivity. Qed.
(** The length has no effect on a local file. *)
Theorem C94_length_is_ignored : forall (name a b : bytes) (o l : Z) (more more' : list bytes), local name -> ~ In COLON a -> ~ In COMMA a -> ~ In COLON b -> py_int 10 a = Some o -> py_int 10 b = Some l ->
  payload ((name ++ B ":" ++ a ++ B "," ++ b) :: more) = payload ((name ++ B ":" ++ a) :: more').
Proof.
  intros name a b o l more more' L Ha Hc Hb Eo El. change (B ",") with [COMMA]. change (B ":") with [COLON].
  assert (H : ~ In COLON (a ++ [COMMA] ++ b)) by (rewrite !in_app_iff; intros [X|[[X|[]]|X]]; [exact (Ha X)|discriminate|exact (Hb X)]).
  unfold payload_main, with_file. rewrite (proj1 (payload_arg_reads name _ H) o (Some l) (PlaceBoth a b o l Hc Eo El)), (proj1 (payload_arg_reads name _ Ha) o None (PlaceOffset a o Hc Eo)), L. reflexivity.
Qed.
(** ** The arguments of warcextract *)
Theorem C94_extract_arguments : forall (name : bytes) (data : bytes) (more : list bytes), local name -> files name = Some data ->
  extract [name] = warcextract gunzip (mkin name data) 0%Z /\
  (forall t o, py_int 10 t = Some o -> extract (name :: t :: more) = warcextract gunzip (mkin name data) o) /\
  (forall t, py_int 10 t = None -> extract (name :: t :: more) = (Raise EValueError, [])).
Proof.
  intros name data more L F. unfold extract_main, with_file, int_arg. rewrite L, F. split; [reflexivity|]. split.
  - intros t o ->. reflexivity.
  - intros t ->. reflexivity.
Qed.

(** ** Index, then record *)
(** the files of the index: names and what they hold, uncompressed or compressed; record lengths as written *)
Definition indexed (name : bytes) (a : archive) : Prop :=
  local name /\ no_lf name /\ ~ In SP name /\ archive_ok a /\ Forall (fun x => length_honest (fst x)) a /\
  exists data, files name = Some data /\ file_holds gunzip (mkin name data) (archive_text a).
Definition is_plain (name : bytes) (a : archive) : Prop := exists data, files name = Some data /\ plain_file (mkin name data) (archive_text a).
(** what can be done with an index line for record [w] *)
Definition leads_to (line : bytes) (nw : bytes * archive * wrec) : Prop := let '(name, a, w) := nw in
  exists offset, line_of line name offset /\ ~ In SP name /\ ~ In SP offset /\
    (is_plain name a -> payload [name ++ B ":" ++ offset] = payload_of client w /\ extract [name; offset] = (Ret tt, w_body w)) /\
    (~ is_plain name a -> payload [name ++ B ":" ++ offset] = (Raise EValueError, []) /\ extract [name; offset] = (Raise EValueError, [])).
Definition listing (l : list (bytes * archive)) : list (bytes * archive * wrec) := concat (map (fun p => map (fun x => (p, fst x)) (snd p)) l).

Lemma field_no_lf w n : wrec_ok w -> no_lf (field_or_dash (header_of n w)).
Proof.
  intros (_ & H & _) Hi. assert (D : ~ In LF (B "-")) by (cbn; intuition discriminate). unfold header_of in Hi. destruct (first_header (B n) (w_headers w)) as [v|] eqn:E; [|exact (D Hi)].
  apply first_header_some in E as (h1 & x & h2 & E & _). rewrite Forall_forall in H. assert (Hx : In (x, v) (w_headers w)) by (rewrite E; apply in_or_app; right; left; reflexivity).
  destruct (H _ Hx) as [_ [Hv _]]. cbn [snd] in Hv. destruct v as [|c t]; [exact (D Hi)|exact (Hv Hi)].
Qed.
Lemma index_line_shape name off w : wrec_ok w -> no_lf name -> no_lf off ->
  exists line, index_line name off w = line ++ [LF] /\ no_lf line /\ line_of line name off.
Proof.
  intros Hw Hn Ho. unfold index_line. eexists. split.
  - rewrite !app_assoc. reflexivity.
  - split.
    + unfold no_lf. rewrite !in_app_iff. assert (Hs : ~ In LF (B " ")) by (cbn; intuition discriminate).
      pose proof (field_no_lf w "WARC-Type" Hw). pose proof (field_no_lf w "WARC-Target-URI" Hw). pose proof (field_no_lf w "WARC-Record-ID" Hw). pose proof (field_no_lf w "Content-Type" Hw).
      assert (~ In LF (dec_nat (List.length (w_body w)))) by (apply digits_free; left; reflexivity). unfold no_lf in *. tauto.
    + eexists. rewrite <- !app_assoc. reflexivity.
Qed.
Lemma plain_or_gz i text1 text2 : plain_file i text1 -> gz_file gunzip i text2 -> False.
Proof. intros (H1 & H2 & _) ([[t E]|[t E]] & _); [exact (H1 t E)|exact (H2 t E)]. Qed.
Lemma line_leads name a data shown k w sep : indexed name a -> files name = Some data -> shown_for gunzip (mkin name data) a shown -> nth_error a k = Some (w, sep) ->
  exists line, index_line name (shown (start_of a k)) w = line ++ [LF] /\ no_lf line /\ leads_to line (name, a, w).
Proof.
  intros (L & Hn & Hs & Hok & Hh & _) F Hsh Hk. assert (Hw : wrec_ok w) by (unfold archive_ok in Hok; rewrite Forall_forall in Hok; apply (Hok (w, sep)); eapply nth_error_In; exact Hk).
  assert (Ho : no_lf (shown (start_of a k)) /\ ~ In SP (shown (start_of a k)) /\ ~ In COLON (shown (start_of a k)) /\ ~ In COMMA (shown (start_of a k))).
  { destruct Hsh as [[_ ->]|[_ ->]]; [repeat split; apply digits_free; compute; auto|repeat split; apply free_by; reflexivity]. }
  destruct Ho as (O1 & O2 & O3 & O4). destruct (index_line_shape name _ w Hw Hn O1) as (line & E & N & Lo). exists line. split; [exact E|]. split; [exact N|].
  exists (shown (start_of a k)). split; [exact Lo|]. split; [exact Hs|]. split; [exact O2|]. destruct (C94_payload_argument name (shown (start_of a k)) [] O3) as (P1 & _ & P3). destruct (C94_extract_arguments name data [] L F) as (_ & X1 & X2). split.
  - intros (d & Fd & Pd). assert (d = data) by congruence. subst d. destruct Hsh as [[_ ->]|[G _]]; [|exfalso; exact (plain_or_gz _ _ _ Pd G)].
    destruct Pd as (D1 & D2 & D3). split; [etransitivity; [exact (P1 (Z.of_nat (start_of a k)) None data (PlaceOffset _ _ O4 (py_int_dec_nat _)) L F)|]|etransitivity; [exact (X1 _ _ (py_int_dec_nat _))|]].
    + exact (C61_payload_at_an_indexed_offset gunzip client (mkin name data) a k w sep Hok D1 D3 Hk).
    + exact (C49_extract_at_an_indexed_offset gunzip (mkin name data) a k w sep Hok (conj D1 (conj D2 D3)) Hk).
  - intro NP. destruct Hsh as [[P _]|[_ ->]]; [exfalso; apply NP; exists data; auto|]. split; [|exact (X2 (B "None") eq_refl)]. apply P3. intros o l PT.
    inversion PT as [t o' H1 H2|x y o' l' H1 H2 H3 E']; [vm_compute in H2; discriminate|]. apply O4. rewrite <- E'. apply in_or_app. right. left. reflexivity.
Qed.
Lemma file_lines name a data shown : indexed name a -> files name = Some data -> shown_for gunzip (mkin name data) a shown ->
  exists lines, index_of_file shown name a = concat (map (fun x => x ++ [LF]) lines) /\ Forall no_lf lines /\ Forall2 leads_to lines (map (fun x => (name, a, fst x)) a).
Proof.
  intros Hi F Hs. unfold index_of_file.
  enough (X : forall b pre, a = pre ++ b -> exists lines, concat (map (fun i => match nth_error a i with Some (w, _) => index_line name (shown (start_of a i)) w | None => [] end) (seq (List.length pre) (List.length b))) =
     concat (map (fun x => x ++ [LF]) lines) /\ Forall no_lf lines /\ Forall2 leads_to lines (map (fun x => (name, a, fst x)) b)) by exact (X a [] eq_refl).
  induction b as [|[w sep] b IH]; intros pre E; [exists []; repeat split; constructor|]. destruct (IH (pre ++ [(w, sep)])) as (lines & E1 & N1 & F1); [rewrite <- app_assoc; exact E|].
  assert (Hk : nth_error a (List.length pre) = Some (w, sep)) by (rewrite E, nth_error_app2 by lia; rewrite Nat.sub_diag; reflexivity).
  destruct (line_leads name a data shown _ w sep Hi F Hs Hk) as (line & E2 & N2 & F2). exists (line :: lines). split; [|split; constructor; assumption].
  cbn [List.length seq map concat]. rewrite Hk, E2. f_equal. rewrite app_length, Nat.add_1_r in E1. exact E1.
Qed.
Lemma all_lines l : Forall (fun p => indexed (fst p) (snd p)) l ->
  exists ins ws lines, found_files files (map fst l) = (ins, true) /\
    Forall2 (fun i p => archive_ok (fst p) /\ Forall (fun x => length_honest (fst x)) (fst p) /\ shown_for gunzip i (fst p) (snd p)) ins ws /\
    concat (map (fun p => index_of_file (snd (snd p)) (in_name (fst p)) (fst (snd p))) (combine ins ws)) = concat (map (fun x => x ++ [LF]) lines) /\
    Forall no_lf lines /\ Forall2 leads_to lines (listing l).
Proof.
  induction 1 as [|[name a] l H Hl (ins & ws & lines & E & F & C & N & T)]; [exists [], [], []; repeat split; constructor|]. cbn [fst snd] in H.
  pose proof H as (_ & _ & _ & Hok & Hh & data & Fd & Hf). assert (Hs : exists shown, shown_for gunzip (mkin name data) a shown) by (destruct Hf as [P|G]; [exists dec_nat; left; auto|exists (fun _ => B "None"); right; auto]).
  destruct Hs as [shown Hs]. destruct (file_lines name a data shown H Fd Hs) as (ls & L1 & L2 & L3). exists (mkin name data :: ins), ((a, shown) :: ws), (ls ++ lines).
  split; [cbn [map found_files fst]; rewrite Fd, E; reflexivity|]. split; [constructor; [repeat split; assumption|exact F]|]. split; [|split; [apply Forall_app; auto|exact (Forall2_app L3 T)]].
  cbn [combine map concat fst snd in_name]. rewrite C, map_app, concat_app. f_equal. exact L1.
Qed.
(** The index of any list of files has a header line and one line for every record, in order; the first two words of a line of
    an uncompressed file, put together, make warcpayload and warcextract print that record.  For a compressed file they raise. *)
Theorem C94_index_lines_lead_to_records : forall (l : list (bytes * archive)), l <> [] -> Forall (fun p => indexed (fst p) (snd p)) l ->
  exists out header lines, index (map fst l) = (Ret 0%Z, out) /\ split_all LF out = header :: lines ++ [[]] /\ Forall2 leads_to lines (listing l).
Proof.
  intros l Hl H. destruct (all_lines l H) as (ins & ws & lines & E & F & C & N & T).
  exists (index_header ++ concat (map (fun x => x ++ [LF]) lines)), (B "#WARC filename offset warc-type warc-subject-uri warc-record-id content-type content-length"), lines. split; [|split; [|exact T]].
  - unfold index_main. destruct l as [|p l]; [contradiction|]. cbn [map] in *. rewrite E, (C49_index_lists_every_record gunzip ins ws F), C. reflexivity.
  - unfold index_header. rewrite <- app_assoc, split_all_line; [|apply free_by; reflexivity]. f_equal. apply split_all_lines. exact N.
Qed.
(** A file that is not there ends the index with an exception, behind the lines of the files before it. *)
Theorem C94_missing_file : forall (l : list (bytes * archive)) (name : bytes) (more : list bytes), Forall (fun p => indexed (fst p) (snd p)) l -> files name = None ->
  exists out header lines, index (map fst l ++ name :: more) = (Raise EOSError, out) /\ split_all LF out = header :: lines ++ [[]] /\ Forall2 leads_to lines (listing l).
Proof.
  intros l name more H F0. destruct (all_lines l H) as (ins & ws & lines & E & F & C & N & T).
  exists (index_header ++ concat (map (fun x => x ++ [LF]) lines)), (B "#WARC filename offset warc-type warc-subject-uri warc-record-id content-type content-length"), lines. split; [|split; [|exact T]].
  - assert (X : found_files files (map fst l ++ name :: more) = (ins, false)).
    { clear -E F0. revert ins E. induction (map fst l) as [|n t IH]; intros ins E; cbn [app found_files] in *; [rewrite F0; injection E as <-; reflexivity|].
      destruct (files n) as [d|]; [|discriminate]. destruct (found_files files t) as [x b]. injection E as <- ->. rewrite (IH x eq_refl). reflexivity. }
    unfold index_main. destruct (map fst l ++ name :: more) as [|n t] eqn:El; [destruct (map fst l); discriminate|]. rewrite X, (C49_index_lists_every_record gunzip ins ws F), C. reflexivity.
  - unfold index_header. rewrite <- app_assoc, split_all_line; [|apply free_by; reflexivity]. f_equal. apply split_all_lines. exact N.
Qed.
End Cli.

(** ** concrete cases: an uncompressed file with a colon in its name, a compressed one, a missing one *)
Definition disk (name : bytes) : option bytes :=
  if bytes_eqb name (B "d:a.warc") then Some (archive_text two_records) else if bytes_eqb name (B "b.warc.gz") then Some two_members else None.
Definition no_far : bytes -> Z -> option Z -> outcome unit * bytes := fun _ _ _ => (Diverge, []).
Example C94_indexed_case : Forall (fun p => indexed toy_gunzip disk (fst p) (snd p)) [(B "d:a.warc", two_records); (B "b.warc.gz", two_records)].
Proof.
  assert (Hh : Forall (fun x : wrec * bytes => length_honest (fst x)) two_records) by (repeat constructor; intros v E; injection E as <-; reflexivity).
  assert (Ha : archive_ok two_records) by (apply archive_okb_sound; vm_compute; reflexivity).
  constructor; [|constructor; [|constructor]]; cbn [fst snd]; (split; [reflexivity|]; split; [apply free_by; reflexivity|]; split; [apply free_by; reflexivity|]; split; [exact Ha|]; split; [exact Hh|]).
  - eexists. split; [reflexivity|]. left. split; [intros t E; apply (f_equal (@rev N)) in E; rewrite rev_app_distr in E; discriminate|]. split; [intros t E; discriminate|reflexivity].
  - eexists. split; [reflexivity|]. right. split; [left; exists (B "b.warc"); reflexivity|vm_compute; reflexivity].
Qed.
Example C94_case : let payload := payload_main toy_gunzip (fun d => Ret d) disk no_far in let extract := extract_main toy_gunzip disk no_far (Diverge, []) in
  index_main toy_gunzip disk [B "d:a.warc"; B "b.warc.gz"; B "c.warc"] = (Raise EOSError,
    B "#WARC filename offset warc-type warc-subject-uri warc-record-id content-type content-length" ++ [LF] ++
    B "d:a.warc 0 warcinfo - - - 2" ++ [LF] ++ B "d:a.warc 58 response - - text/dns 1" ++ [LF] ++ B "b.warc.gz None warcinfo - - - 2" ++ [LF] ++ B "b.warc.gz None response - - text/dns 1" ++ [LF]) /\
  payload [B "d:a.warc:58"] = (Ret tt, B "x") /\ payload [B "d:a.warc:58,1"] = (Ret tt, B "x") /\ payload [B "d:a.warc: 5_8 ,-1"] = (Ret tt, B "x") /\ payload [B "d:a.warc:58,1,2"] = (Raise EValueError, []) /\
  payload [B "b.warc.gz:None"] = (Raise EValueError, []) /\ payload [B "d:a.warc"] = (Raise EValueError, []) /\ payload [B "c.warc:0"] = (Raise EOSError, []) /\
  extract [B "d:a.warc"; B "58"] = (Ret tt, B "x") /\ extract [B "d:a.warc"] = (Ret tt, B "hi") /\ extract [B "c.warc"; B "x"] = (Raise EValueError, []) /\ extract [B "c.warc"; B "0"] = (Raise EOSError, []).
Proof. vm_compute. repeat split. Qed.
