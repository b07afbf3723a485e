(** C100: write_to(out, newline=...) - records written with another newline than CR LF. *)
From Verif Require Export PropsCopyTwice PropsValid.
From Coq Require Import String List Lia ZArith.
Open Scope list_scope.

(** ** Specification *)
(** a record as write_to lays it out with newline [nl] *)
Definition line_with (nl : bytes) (h : header) : bytes := fst h ++ B ": " ++ snd h ++ nl.
Definition text_with (nl : bytes) (w : wrec) : bytes :=
  w_version w ++ nl ++ concat (map (line_with nl) (w_headers w)) ++ nl ++ w_body w ++ nl ++ nl.
(** record.write_to(out, newline) for one record after the other, each with its own newline *)
Fixpoint write_each (l : list (record * bytes)) (st : stream) : outcome unit * bytes :=
  match l with
  | [] => (Ret tt, [])
  | (r, nl) :: t =>
      match write_to None nl r st with
      | (Ret _, _, st', out) => let '(o, out') := write_each t st' in (o, out ++ out')
      | (Raise e, _, _, out) => (Raise e, out)
      | (Diverge, _, _, out) => (Diverge, out)
      end
  end.
Definition sources (l : list (source * bytes)) : list (record * bytes) := map (fun p => (source_record (fst p), snd p)) l.
(** the file written *)
Definition file_with (l : list (source * bytes)) : bytes := concat (map (fun p => text_with (snd p) (source_wrec (fst p))) l).
(** CR LF or LF *)
Definition usual (nl : bytes) : Prop := nl = CRLF \/ nl = [LF].
(** the remarks on a record written with [nl]: one for the version line, one for each header line, unless it is CR LF *)
Definition remarks (nl : bytes) (w : wrec) : list perr :=
  if bytes_eqb nl CRLF then [] else ErrVersionNl nl :: map (fun _ => ErrHeaderNl nl) (w_headers w).
Fixpoint seen_file (start : nat) (l : list (source * bytes)) : list seen :=
  match l with
  | [] => [SeenEnd (Some start) []]
  | (x, nl) :: t =>
      let w := source_wrec x in
      Seen (Some start) (w_version w) (w_headers w) (remarks nl w) (first_header (B "Content-Type") (w_headers w)) (w_body w)
      :: seen_file (start + List.length (text_with nl w)) t
  end.

(** ** Writing *)
Lemma write_with x nl st : exists r', write_to None nl (source_record x) st = (Ret tt, r', st, text_with nl (source_wrec x)).
Proof.
  destruct x as [v hs ct body|v hs rd]; cbn [source_record source_wrec].
  - exists (new_warc v hs (Some (ct, Some body)) [] CF_none). unfold write_to, rec_write, has_cf. cbn [new_warc with_cf r_cf r_class andb].
    unfold warc_write, has_cf, rec_content. cbn [new_warc with_cf r_cf r_content r_headers].
    match goal with |- (Ret tt, _, _, ?a) = (_, _, _, ?b) => assert (E : a = b) end; [|rewrite E; reflexivity].
    unfold text_with, tuple_wrec. cbn [w_version w_headers w_body]. unfold tuple_headers. rewrite !map_app, !concat_app, <- !app_assoc. do 3 f_equal.
    destruct ct as [[|c t]|]; cbn [truthy or_empty map concat]; unfold line_with; cbn [fst snd]; rewrite <- ?app_assoc, ?app_nil_r; reflexivity.
  - unfold write_to, rec_write. cbn [new_warc with_cf r_cf r_class has_cf r_valid negb andb].
    unfold warc_write. cbn [has_cf new_warc with_cf r_cf r_headers r_valid].
    match goal with |- context [copy_loop ?f ?c ?s ?o] => destruct (copy_own rd f s o (Nat.lt_succ_diag_r _)) as [rd' E] end.
    rewrite E. cbn [with_cf with_valid has_cf r_cf r_class r_headers r_errors r_content]. eexists.
    match goal with |- (Ret tt, _, _, ?a) = (_, _, _, ?b) => assert (E1 : a = b) end; [|rewrite E1; reflexivity].
    assert (Ew : write_headers true nl hs = concat (map (line_with nl) hs)).
    { unfold write_headers. f_equal. assert (E2 : filter (keeps_header true) hs = hs) by (clear; induction hs as [|h t IH]; [reflexivity|]; cbn; f_equal; exact IH). rewrite E2. reflexivity. }
    rewrite Ew. unfold text_with. cbn [w_version w_headers w_body]. rewrite <- !app_assoc. reflexivity.
Qed.
Theorem C100_what_is_written : forall (l : list (source * bytes)) (st : stream), write_each (sources l) st = (Ret tt, file_with l).
Proof.
  intros l st. induction l as [|[x nl] l IH]; [reflexivity|]. cbn [sources map write_each fst snd].
  destruct (write_with x nl st) as [r' E]. rewrite E. fold (sources l). rewrite IH. reflexivity.
Qed.

(** ** Reading what was written with CR LF or LF *)
Definition crlf_of (nl : bytes) : bool := bytes_eqb nl CRLF.
Lemma usual_eol nl : usual nl -> nl = eol (crlf_of nl).
Proof. intros [-> | ->]; reflexivity. Qed.
Definition line_entry (b : bool) (h : header) : entry := mkentry (fst h) (SP :: snd h) b [].
Lemma line_entry_text b h : entry_text (line_entry b h) = line_with (eol b) h.
Proof. unfold entry_text, entry_line, line_entry, line_with. cbn [en_name en_raw en_crlf en_conts map concat]. rewrite app_nil_r. reflexivity. Qed.
Lemma line_entry_ok b h : header_ok h -> entry_ok (line_entry b h).
Proof.
  intros [(N1 & N2 & N3) (V1 & V2)]. unfold entry_ok, line_entry. cbn [en_name en_raw en_crlf en_conts].
  split; [exact N1|]. split; [exact N2|]. split; [apply tidy_trimmed in N3; apply N3|]. split; [intros [X|X]; [discriminate|exact (V1 X)]|].
  split; [|constructor]. intros _ t E. apply tidy_trimmed in V2.
  destruct t as [|c t]; [discriminate|]. injection E as _ E. destruct V2 as [_ V2]. pose proof (V2 t CR E) as X. discriminate X.
Qed.
Lemma line_entry_header b h : header_ok h -> entry_header (line_entry b h) = h.
Proof. intro H. etransitivity; [|exact (plain_entry_header h H)]. reflexivity. Qed.
Lemma line_entry_errors b h : header_ok h -> header_clean h -> entry_errors (line_entry b h) = if b then [] else [ErrHeaderNl [LF]].
Proof.
  intros H Hc. pose proof (plain_entry_errors h H Hc) as E. destruct b; [exact E|].
  unfold entry_errors in E |- *. rewrite (line_entry_header false h H). rewrite (plain_entry_header h H) in E. apply app_eq_nil in E as [_ E]. rewrite E. reflexivity.
Qed.
Definition grec_of (nl : bytes) (w : wrec) : grec :=
  mkg [] [] [] (B "WARC/") (skipn 5 (w_version w)) nl (map (line_entry (crlf_of nl)) (w_headers w)) (crlf_of nl) (w_body w).
Lemma version_split v : In v versions -> v = B "WARC/" ++ skipn 5 v /\ In (skipn 5 v) known_numbers.
Proof. intros [<-|[<-|[<-|[]]]]; (split; [reflexivity|]); cbn; auto. Qed.
Lemma vline_as nl v : usual nl -> In v versions -> is_line (B "WARC/" ++ skipn 5 v ++ nl) /\ version_as (B "WARC/" ++ skipn 5 v ++ nl) [] [] (B "WARC/") (skipn 5 v) nl.
Proof.
  intros Hn Hv. destruct (version_split v Hv) as [Ev Hk]. split.
  - destruct Hn as [-> | ->].
    + exists (B "WARC/" ++ skipn 5 v ++ [CR]). split; [|unfold line_text; rewrite <- !app_assoc; reflexivity].
      destruct Hv as [<-|[<-|[<-|[]]]]; apply (no_byteb_sound 10); reflexivity.
    + exists (B "WARC/" ++ skipn 5 v). split; [|unfold line_text; rewrite <- !app_assoc; reflexivity].
      destruct Hv as [<-|[<-|[<-|[]]]]; apply (no_byteb_sound 10); reflexivity.
  - split; [reflexivity|]. split; [reflexivity|]. split; [reflexivity|]. split; [reflexivity|]. split; [intros [|? ?] ? E; discriminate|].
    destruct Hn as [-> | ->]; [left; reflexivity|]. right; right. split; [reflexivity|]. intros t E. clear - Hk E.
    destruct Hk as [X|[X|[X|[]]]]; rewrite <- X in E;
      [change (B "1.0") with (B "1." ++ [48%N]) in E|change (B "0.17") with (B "0.1" ++ [55%N]) in E|change (B "0.18") with (B "0.1" ++ [56%N]) in E];
      apply app_inj_tail in E as [_ E]; discriminate.
Qed.
Lemma line_headers b hs : Forall header_ok hs -> map entry_header (map (line_entry b) hs) = hs.
Proof. intro H. induction H as [|h hs Hh _ IH]; [reflexivity|]. cbn [map]. rewrite (line_entry_header b h Hh), IH. reflexivity. Qed.
Lemma grec_of_ok nl w : usual nl -> wrec_ok w -> g_ok (grec_of nl w).
Proof.
  intros Hn (Hv & Ho & Hc & Hl). destruct (vline_as nl _ Hn Hv) as [L1 L2]. destruct (version_split _ Hv) as [_ Hk].
  unfold g_ok, grec_of. cbn [g_junk g_pfx g_ws g_tag g_num g_nl g_entries g_crlf g_body].
  split; [constructor|]. split; [constructor|]. split; [cbn; lia|]. split; [exact L1|]. split; [exact L2|]. split; [exact Hk|]. split.
  - apply Forall_forall. intros e He. apply in_map_iff in He as (h & <- & Hh). rewrite Forall_forall in Ho. apply line_entry_ok. auto.
  - rewrite (line_headers _ _ Ho). exact Hl.
Qed.
Lemma grec_of_text nl w : usual nl -> In (w_version w) versions -> g_text (grec_of nl w) ++ nl ++ nl = text_with nl w.
Proof.
  intros Hn Hv. destruct (version_split _ Hv) as [Ev _]. unfold g_text, grec_of, g_vline. cbn [g_junk g_pfx g_ws g_tag g_num g_nl g_entries g_crlf g_body concat app].
  rewrite <- (usual_eol nl Hn). unfold text_with, entries_of. rewrite map_map. rewrite (map_ext _ _ (line_entry_text _)). rewrite <- (usual_eol nl Hn).
  set (n := skipn 5 (w_version w)) in *. clearbody n. cbn [ToolFacts.g_nl]. rewrite Ev, <- !app_assoc. reflexivity.
Qed.
Lemma grec_of_wrec nl w : wrec_ok w -> g_wrec (grec_of nl w) = w.
Proof.
  intros (Hv & Ho & _). unfold g_wrec, grec_of. cbn [g_ws g_tag g_num g_entries g_body app]. rewrite (line_headers _ _ Ho).
  destruct (version_split _ Hv) as [Ev _]. destruct w as [v hs b]. cbn [w_version w_headers w_body] in *. set (n := skipn 5 v) in *. clearbody n. rewrite Ev. reflexivity.
Qed.
Lemma grec_of_errors nl w : usual nl -> wrec_ok w -> g_errors (grec_of nl w) = remarks nl w.
Proof.
  intros Hn (Hv & Ho & Hc & _). unfold g_errors, grec_of, remarks. cbn [g_junk g_pfx ToolFacts.g_nl g_entries junk_lines filter map app]. fold (crlf_of nl).
  assert (E : concat (map entry_errors (map (line_entry (crlf_of nl)) (w_headers w))) = if crlf_of nl then [] else map (fun _ => ErrHeaderNl [LF]) (w_headers w)).
  { clear Hv. revert Ho Hc. generalize (w_headers w). intros hs Ho. induction Ho as [|h hs Hh _ IH]; intro Hc; [destruct (crlf_of nl); reflexivity|].
    inversion Hc as [|? ? H1 H2]; subst. cbn [map concat]. rewrite (line_entry_errors _ h Hh H1), (IH H2). destruct (crlf_of nl); reflexivity. }
  rewrite E. destruct Hn as [-> | ->]; reflexivity.
Qed.
Definition garch (l : list (source * bytes)) : garchive := map (fun p => (grec_of (snd p) (source_wrec (fst p)), snd p ++ snd p)) l.
Definition sources_ok (l : list (source * bytes)) : Prop := Forall (fun p => source_ok (fst p) /\ usual (snd p)) l.
Lemma usual_sep nl : usual nl -> sep_ok (nl ++ nl).
Proof. intros [-> | ->]; (split; [|right]); [|exists [13; 10; 13]%N; reflexivity| |exists [10]%N; reflexivity]; intros c Hc; cbn in Hc; unfold CR, LF; intuition. Qed.
Lemma garch_ok l : sources_ok l -> garchive_ok (garch l).
Proof.
  intro H. unfold garch, garchive_ok. apply Forall_forall. intros p Hp. apply in_map_iff in Hp as ([x nl] & <- & Hin).
  unfold sources_ok in H. rewrite Forall_forall in H. destruct (H _ Hin) as [H1 H2]. cbn [fst snd] in *.
  split; [apply grec_of_ok; [exact H2|apply source_wrec_ok; exact H1]|apply usual_sep; exact H2].
Qed.
Lemma garch_text l : sources_ok l -> garchive_text (garch l) = file_with l.
Proof.
  intro H. induction H as [|[x nl] l [H1 H2] _ IH]; [reflexivity|]. cbn [fst snd] in *. cbn [garch map fst snd]. rewrite garchive_text_cons. fold (garch l). rewrite IH.
  change (file_with ((x, nl) :: l)) with (text_with nl (source_wrec x) ++ file_with l).
  rewrite <- (grec_of_text nl (source_wrec x) H2 (proj1 (source_wrec_ok x H1))), <- !app_assoc. reflexivity.
Qed.

(** the caller's view of an archive in any layout *)
Fixpoint gseen (start : nat) (a : garchive) : list seen :=
  match a with
  | [] => [SeenEnd (Some start) []]
  | (g, sep) :: t =>
      Seen (Some (start + List.length (concat (g_junk g)) + List.length (g_pfx g))) (w_version (g_wrec g)) (w_headers (g_wrec g)) (g_errors g)
        (first_header (B "Content-Type") (w_headers (g_wrec g))) (g_body g) :: gseen (start + List.length (g_text g) + List.length sep) t
  end.
Lemma look_loop a : forall fuel acc st start, garchive_ok a -> at_text st start (garchive_text a) -> s_parser st = PWarc -> s_kind st = SPlain -> List.length a < fuel ->
  exists st', read_loop fuel None true look acc st = (Ret tt, acc ++ gseen start a, st').
Proof.
  induction a as [|[g sep] a IH]; intros fuel acc st start Hok Hat Hp Hk Hf; (destruct fuel as [|fuel]; [simpl in Hf; lia|]); cbn [read_loop gseen].
  - destruct (read_last_g st start true Hat Hp Hk) as (st1 & E). rewrite E, Hk. cbn [item_offset look snd fst]. eauto.
  - inversion Hok as [|? ? [Hg Hsep] Hok']; subst. cbn [fst snd] in Hg, Hsep.
    destruct (read_first_g st start g sep a true Hat Hp Hk Hg) as (st1 & E & Hin & Hk1 & Hp1 & Hpos1). rewrite E. cbn [look].
    rewrite (rec_content_payload (g_handed g) st1 (g_body g) _ eq_refl eq_refl Hin). cbn [snd fst].
    assert (Eg : get_header (g_handed g) (ct_name (g_handed g)) = first_header (B "Content-Type") (w_headers (g_wrec g))) by (unfold get_header; apply lookup_first).
    rewrite Eg. pose proof (used_all st1 (g_body g)) as Hu.
    destruct (used_payload _ _ _ _ Hin Hu) as (l & _ & Hp2 & Hk2 & _).
    match goal with |- exists st', read_loop _ _ _ _ ?a _ = _ => edestruct (IH fuel a (moved st1 (List.length (g_body g)) 0) (start + List.length (g_text g) + List.length sep)) as [st' E2]; [exact Hok'| | | | |] end.
    + eapply (at_text_next st1 (g_body g) _ sep _ _ Hin Hu Hsep). lia.
    + congruence.
    + congruence.
    + simpl in Hf. lia.
    + eexists. etransitivity; [exact E2|]. rewrite <- app_assoc. reflexivity.
Qed.

Lemma gseen_garch l : forall start, sources_ok l -> gseen start (garch l) = seen_file start l.
Proof.
  induction l as [|[x nl] l IH]; intros start H; [reflexivity|]. inversion H as [|? ? [H1 H2] H3]; subst. cbn [fst snd] in *.
  cbn [garch map gseen seen_file fst snd]. fold (garch l). pose proof (source_wrec_ok x H1) as Hw.
  rewrite (grec_of_wrec nl _ Hw), (grec_of_errors nl _ H2 Hw), IH by exact H3. unfold grec_of at 1 2. cbn [g_junk g_pfx concat List.length]. rewrite !Nat.add_0_r.
  f_equal. f_equal. rewrite <- (grec_of_text nl (source_wrec x) H2 (proj1 Hw)), !app_length. lia.
Qed.
(** records written with CR LF or LF, each as it likes, are read back as they were; the remarks are exactly one for
    each version and header line that ends in LF alone *)
Theorem C100_reads_back : forall (l : list (source * bytes)) (st : stream),
  sources_ok l -> opened_on (file_with l) st ->
  exists st', for_read_records None true look [] st = (Ret tt, seen_file 0 l, st').
Proof.
  intros l st H Ho. rewrite <- (garch_text l H) in Ho. destruct Ho as [strict ->].
  match goal with |- context [for_read_records _ _ _ _ ?s] => set (st := s) end. unfold for_read_records.
  destruct (look_loop (garch l) (file_fuel (s_fh st)) [] st 0 (garch_ok l H)) as [st' E]; [left; split; [reflexivity|]; exists []; split; [reflexivity|]; split; [split; [intros c []|left; reflexivity]|reflexivity]|reflexivity|reflexivity| |].
  - pose proof (rest_fuel st) as Hf. change (rest st) with (garchive_text (garch l)) in Hf. pose proof (garchive_text_records (garch l) (garch_ok l H)). lia.
  - exists st'. rewrite E, (gseen_garch l 0 H). reflexivity.
Qed.
(** warcvalid accepts the file exactly if all its records were written with CR LF *)
Theorem C100_valid : forall gunzip (l : list (source * bytes)) (i : input), sources_ok l -> plain_file i (file_with l) ->
  warcvalid gunzip [i] = Ret (if forallb (fun p => bytes_eqb (snd p) CRLF) l then 0 else -1)%Z.
Proof.
  intros gunzip l i H Hi. rewrite <- (garch_text l H) in Hi. rewrite (C48_layout_errors gunzip i (garch l) (garch_ok l H) Hi).
  replace (forallb (fun g => match g_errors (fst g) with [] => true | _ => false end) (garch l)) with (forallb (fun p : source * bytes => bytes_eqb (snd p) CRLF) l); [reflexivity|].
  clear Hi. induction H as [|[x nl] l [H1 H2] _ IH]; [reflexivity|]. cbn [fst snd] in *. cbn [garch map forallb fst snd]. fold (garch l). rewrite IH. f_equal.
  rewrite (grec_of_errors nl _ H2 (source_wrec_ok x H1)). unfold remarks. destruct (bytes_eqb nl CRLF); reflexivity.
Qed.
(** warc2warc makes of it, byte for byte, the file that writing with CR LF gives *)
Theorem C100_repaired : forall gunzip http_gz unzlib ungzip (l : list (source * bytes)) (i : input) (st : stream), sources_ok l -> plain_file i (file_with l) ->
  exists out, warc2warc gunzip http_gz unzlib ungzip None false [i] = (Ret tt, out) /\
    write_each (sources (map (fun p => (fst p, CRLF)) l)) st = (Ret tt, out) /\ write_all None (map (fun p => source_record (fst p)) l) st = (Ret tt, out).
Proof.
  intros gunzip hg uz ug l i st H Hi. rewrite <- (garch_text l H) in Hi. eexists. split; [exact (C45_any_layout_made_canonical gunzip hg uz ug None i (garch l) (garch_ok l H) Hi)|].
  assert (E : concat (map (fun g : grec * bytes => in_output None (canonical (g_wrec (fst g)))) (garch l)) = file_with (map (fun p => (fst p, CRLF)) l)).
  { clear Hi. induction H as [|[x nl] l [H1 H2] _ IH]; [reflexivity|]. cbn [fst snd] in *. cbn [garch map fst snd concat]. fold (garch l). rewrite IH.
    change (file_with ((x, CRLF) :: map (fun p => (fst p, CRLF)) l)) with (text_with CRLF (source_wrec x) ++ file_with (map (fun p => (fst p, CRLF)) l)). f_equal.
    rewrite (grec_of_wrec nl _ (source_wrec_ok x H1)). cbn [in_output]. unfold canonical, wrec_text, head_text, text_with, terminator.
    change header_text with (line_with CRLF). rewrite <- !app_assoc. reflexivity. }
  rewrite E. split; [apply C100_what_is_written|]. clear. induction l as [|[x nl] l IH]; [reflexivity|]. cbn [map write_all fst].
  destruct (write_with x CRLF st) as [r' Ew]. rewrite Ew. fold (write_all None) in IH |- *. rewrite IH. reflexivity.
Qed.

(** ** Other newlines *)
(** a newline whose first line end - if it has one - has something else before it than at most one CR, or no line end at all *)
Definition odd_newline (nl : bytes) : Prop := no_lf nl \/ exists p q, nl = p ++ LF :: q /\ no_lf p /\ p <> [] /\ p <> [CR].
(** the text up to its first line end, LF; or to the end with a CR there *)
Definition ends_somewhere (text : bytes) : bool := existsb (N.eqb LF) text || N.eqb (last text 0%N) 13.
Lemma known_colon n : In n known_numbers -> ~ In COLON n.
Proof. intros [<-|[<-|[<-|[]]]] H; cbn in H; unfold COLON in H; intuition discriminate. Qed.
Lemma known_longer a p : In a known_numbers -> In (a ++ p) known_numbers -> p = [].
Proof.
  intros Ha Hp. destruct p as [|c p]; [reflexivity|exfalso]. unfold known_numbers in *. cbn [In] in *.
  destruct Ha as [<-|[<-|[<-|[]]]]; destruct Hp as [E|[E|[E|[]]]]; cbn in E; discriminate.
Qed.
(** a line that begins with the version and goes on *)
Lemma line_chop n x : ends_nl (n ++ x) -> exists num nl, n ++ x = num ++ nl /\ line_end num nl /\ version_as (B "WARC/" ++ n ++ x) [] [] (B "WARC/") num nl.
Proof.
  intro He. apply chop_ends in He as [[num nl] Hc]. pose proof (chop_some _ _ _ Hc) as E. pose proof (line_end_chop _ _ _ Hc) as Hl.
  exists num, nl. split; [exact E|]. split; [exact Hl|]. rewrite E. split; [reflexivity|]. split; [reflexivity|]. split; [reflexivity|]. split; [reflexivity|].
  split; [intros [|? ?] ? X; discriminate|exact Hl].
Qed.
Lemma colon_unknown n x num nl : line_end num nl -> n ++ x = num ++ nl -> In COLON x -> ~ In num known_numbers.
Proof.
  intros Hl E Hx Hk. assert (Hi : In COLON (num ++ nl)) by (rewrite <- E; apply in_or_app; right; exact Hx).
  apply in_app_or in Hi as [Hi|Hi]; [exact (known_colon _ Hk Hi)|]. unfold COLON in Hi.
  destruct Hl as [-> | [-> | [-> _]]]; cbn in Hi; intuition discriminate.
Qed.
Lemma first_colon nl hs more : hs <> [] -> Forall header_ok hs -> exists a b, concat (map (line_with nl) hs) ++ more = a ++ COLON :: b /\ no_lf a.
Proof.
  intros Hn Ho. destruct Ho as [|[k v] hs [[K1 _] _] _]; [contradiction|]. exists k, ([SP] ++ v ++ nl ++ concat (map (line_with nl) hs) ++ more).
  split; [|exact K1]. cbn [map concat]. unfold line_with at 1. cbn [fst snd]. change (B ": ") with [COLON; SP]. rewrite <- !app_assoc. reflexivity.
Qed.
Lemma answer_bad gz st p b text n x t : ready_on gz st p text -> lines_of text = (B "WARC/" ++ n ++ x) :: t -> ends_nl x ->
  (forall num nl, line_end num nl -> n ++ x = num ++ nl -> ~ In num known_numbers) -> fst (read_record st b) = Raise ETypeError.
Proof.
  intros Hr El He Hb. destruct (line_chop n x (ends_nl_app n x He)) as (num & nl & E & Hl & Has).
  exact (answer_version gz st p text b [] _ t [] [] _ num nl Hr El ltac:(constructor) ltac:(cbn; lia) Has (Hb num nl Hl E)).
Qed.
Lemma version_no_lf n : In n known_numbers -> ~ In LF (B "WARC/" ++ n).
Proof. intros [<-|[<-|[<-|[]]]]; apply (no_byteb_sound 10); reflexivity. Qed.
Lemma odd_unknown n p num nl : In n known_numbers -> p <> [] -> p <> [CR] -> line_end num nl -> n ++ p ++ [LF] = num ++ nl -> ~ In num known_numbers.
Proof.
  intros Hn P1 P2 Hl E Hk. destruct Hl as [-> | [-> | [-> _]]].
  - change CRLF with ([CR] ++ [LF]) in E. rewrite !app_assoc in E. apply app_inj_tail in E as [E _].
    destruct (last_case p) as [-> |(p' & c & ->)]; [contradiction|]. rewrite app_assoc in E. apply app_inj_tail in E as [E ->].
    rewrite <- E in Hk. apply (known_longer n p' Hn) in Hk. subst p'. contradiction.
  - rewrite app_assoc in E. apply app_inj_tail in E as [_ E]. discriminate.
  - rewrite app_assoc in E. apply app_inj_tail in E as [E _]. rewrite <- E in Hk. apply (known_longer n p Hn) in Hk. contradiction.
Qed.
Lemma first_lf s : existsb (N.eqb LF) s = true -> exists a b, s = a ++ LF :: b /\ ~ In LF a.
Proof.
  induction s as [|c s IH]; [discriminate|]. cbn [existsb]. destruct (N.eqb_spec LF c) as [<-|Hc].
  - intros _. exists [], s. split; [reflexivity|intros []].
  - cbn [orb]. intro H. destruct (IH H) as (a & b & -> & Ha). exists (c :: a), b. split; [reflexivity|]. intros [X|X]; [congruence|exact (Ha X)].
Qed.
Lemma no_lf_existsb s : existsb (N.eqb LF) s = false <-> ~ In LF s.
Proof.
  split.
  - intros H Hi. assert (E : existsb (N.eqb LF) s = true) by (apply existsb_exists; exists LF; split; [exact Hi|reflexivity]). congruence.
  - intro H. destruct (existsb (N.eqb LF) s) eqn:E; [|reflexivity]. apply existsb_exists in E as (c & Hc & Ec). apply N.eqb_eq in Ec. subst c. contradiction.
Qed.
(** with such a newline nothing that was written can be read: the reader raises TypeError, as with an unknown version; or - if there is no line end
    in all of the file - takes it for one line of junk *)
Theorem C100_odd_newlines : forall (gz : bool) (st : stream) (pos : nat) (nl : bytes) (w : wrec) (more : bytes) (offsets : bool),
  let text := text_with nl w ++ more in
  ready_on gz st pos text -> odd_newline nl -> In (w_version w) versions -> Forall header_ok (w_headers w) -> w_headers w <> [] ->
  fst (read_record st offsets) =
    if ends_somewhere text then Raise ETypeError
    else Ret (if offsets && negb gz then Some (pos + List.length text) else None, None, [ErrIgnored text]).
Proof.
  intros gz st p nl w more b text Hr Hodd Hv Ho Hne. destruct (version_split _ Hv) as [Ev Hk]. set (n := skipn 5 (w_version w)) in *. clearbody n.
  assert (Et : text = (B "WARC/" ++ n) ++ nl ++ concat (map (line_with nl) (w_headers w)) ++ nl ++ w_body w ++ nl ++ nl ++ more).
  { unfold text, text_with. rewrite Ev, <- !app_assoc. reflexivity. }
  clearbody text. pose proof (version_no_lf n Hk) as Hn0.
  destruct Hodd as [Hnl|(q & r & -> & Hq & Q1 & Q2)].
  - destruct (first_colon nl (w_headers w) (nl ++ w_body w ++ nl ++ nl ++ more) Hne Ho) as (a & c & Ea & Ha). rewrite Ea in Et.
    assert (Hpre : ~ In LF ((B "WARC/" ++ n) ++ nl ++ a)).
    { intro X. apply in_app_or in X as [X|X]; [exact (Hn0 X)|]. apply in_app_or in X as [X|X]; [exact (Hnl X)|exact (Ha X)]. }
    unfold ends_somewhere. destruct (existsb (N.eqb LF) text) eqn:El; cbn [orb].
    + destruct (first_lf text El) as (u & z & Eu & Hu). rewrite Et in Eu.
      assert (Hc : exists c1 c2, c = c1 ++ LF :: c2 /\ ~ In LF c1).
      { destruct (existsb (N.eqb LF) c) eqn:Ec; [destruct (first_lf c Ec) as (c1 & c2 & E1 & E2); eauto|exfalso].
        apply no_lf_existsb in Ec. assert (Hi : In LF text) by (rewrite Et, Eu; apply in_or_app; right; left; reflexivity). rewrite Et in Hi.
        rewrite !app_assoc in Hi. apply in_app_or in Hi as [Hi|[Hi|Hi]]; [rewrite <- app_assoc in Hi; exact (Hpre Hi)|discriminate|exact (Ec Hi)]. }
      destruct Hc as (c1 & c2 & -> & Hc1). clear u z Eu Hu.
      apply (answer_bad gz st p b text n (nl ++ a ++ COLON :: c1 ++ [LF]) (lines_of c2) Hr).
      * rewrite Et. replace ((B "WARC/" ++ n) ++ nl ++ a ++ COLON :: c1 ++ LF :: c2) with (((B "WARC/" ++ n) ++ nl ++ a ++ COLON :: c1) ++ LF :: c2) by (rewrite <- !app_assoc; reflexivity).
        rewrite lines_of_lf; [f_equal; rewrite <- !app_assoc; reflexivity|]. intro X.
        replace ((B "WARC/" ++ n) ++ nl ++ a ++ COLON :: c1) with (((B "WARC/" ++ n) ++ nl ++ a) ++ COLON :: c1) in X by (rewrite <- !app_assoc; reflexivity).
        apply in_app_or in X as [X|[X|X]]; [exact (Hpre X)|discriminate|exact (Hc1 X)].
      * exists (nl ++ a ++ COLON :: c1), LF. split; [rewrite <- !app_assoc; reflexivity|right; reflexivity].
      * intros num nl' Hl E. apply (colon_unknown _ _ _ _ Hl E). apply in_or_app. right. apply in_or_app. right. left. reflexivity.
    + apply no_lf_existsb in El. assert (Hnil : text <> []) by (rewrite Et; discriminate). pose proof (lines_of_eof text El Hnil) as Elines.
      destruct (N.eqb_spec (last text 0%N) 13) as [Hl|Hl].
      * apply (answer_bad gz st p b text n (nl ++ a ++ COLON :: c) [] Hr).
        -- rewrite Elines, Et, <- app_assoc. reflexivity.
        -- assert (Hx : nl ++ a ++ COLON :: c <> []) by (destruct nl; [destruct a; discriminate|discriminate]).
           destruct (last_case (nl ++ a ++ COLON :: c)) as [X|(y & d & Ey)]; [contradiction|]. exists y, d. split; [exact Ey|left].
           rewrite Et, Ey, app_assoc, last_last in Hl. exact Hl.
        -- intros num nl' Hle E. apply (colon_unknown _ _ _ _ Hle E). apply in_or_app. right. apply in_or_app. right. left. reflexivity.
      * assert (Hvl : version_line text = false).
        { unfold version_line. apply andb_false_iff. right. apply orb_false_iff. split; apply N.eqb_neq; [exact Hl|]. intro X.
          destruct (last_case text) as [Y|(y & d & Ey)]; [contradiction|]. rewrite Ey, last_last in X. subst d. apply El. rewrite Ey. apply in_or_app. right. left. reflexivity. }
        assert (Hb : blank_text text = false) by (rewrite Et; reflexivity).
        pose proof (answer_end gz st p text b Hr) as A. rewrite Elines in A. cbn [junk_lines filter map] in A. rewrite Hb in A. cbn [negb map List.length] in A. rewrite (A ltac:(constructor; [exact Hvl|constructor]) ltac:(lia)).
        reflexivity.
  - assert (Ee : ends_somewhere text = true).
    { unfold ends_somewhere. apply orb_true_iff. left. apply existsb_exists. exists LF. split; [|reflexivity]. rewrite Et. apply in_or_app. right. apply in_or_app. left. apply in_or_app. right. left. reflexivity. }
    rewrite Ee. rewrite <- (app_assoc q (LF :: r)) in Et. cbn [app] in Et.
    match type of Et with context [q ++ LF :: ?z] => apply (answer_bad gz st p b text n (q ++ [LF]) (lines_of z) Hr) end.
    + rewrite Et. rewrite app_assoc, lines_of_lf; [f_equal; rewrite <- !app_assoc; reflexivity|]. intro X. apply in_app_or in X as [X|X]; [exact (Hn0 X)|exact (Hq X)].
    + exists q, LF. split; [reflexivity|right; reflexivity].
    + intros num nl' Hl E. exact (odd_unknown n q num nl' Hk Q1 Q2 Hl E).
Qed.
(** with a newline that is a line end followed by the beginning of another the first head found is empty: the record handed out has no header and
    no content, and what was written lies about as junk *)
Theorem C100_doubled_newlines : forall (gz : bool) (st : stream) (pos : nat) (nl e q : bytes) (c : N) (w : wrec) (more : bytes) (offsets : bool),
  ready_on gz st pos (text_with nl w ++ more) -> nl = e ++ c :: q -> usual e -> c = LF \/ c = CR -> In (w_version w) versions ->
  exists r st1, read_record st offsets = (Ret (if offsets && negb gz then Some pos else None, Some r, []), st1) /\
    r = mkrec (RWarc (w_version w)) [] (if bytes_eqb e CRLF then [] else [ErrVersionNl e]) None CF_stream true /\
    fst (fst (rec_content r st1)) = Ret (None, Some []).
Proof.
  intros gz st p nl e q c w more b Hr En He Hc Hv. destruct (version_split _ Hv) as [Ev Hk]. destruct (vline_as e _ He Hv) as [L1 L2]. set (n := skipn 5 (w_version w)) in *. clearbody n.
  assert (Et : exists y, text_with nl w ++ more = (B "WARC/" ++ n ++ e) ++ c :: y).
  { eexists. unfold text_with. rewrite Ev. rewrite En at 1. rewrite <- !app_assoc. cbn [app]. reflexivity. }
  destruct Et as [y Et]. rewrite Et in Hr.
  assert (El : exists s t, lines_of ((B "WARC/" ++ n ++ e) ++ c :: y) = (B "WARC/" ++ n ++ e) :: s :: t /\ blank_text s = true).
  { destruct L1 as (z & Hz & Ez). rewrite Ez. unfold line_text. rewrite <- app_assoc. cbn [app]. change (z ++ LF :: c :: y) with (z ++ 10%N :: c :: y). rewrite (lines_of_lf z (c :: y) Hz).
    destruct Hc as [-> | ->].
    - exists [LF], (lines_of y). split; [|reflexivity]. reflexivity.
    - destruct (lines_of (CR :: y)) as [|s t] eqn:E; [apply lines_of_nil in E; discriminate|]. exists s, t. split; [reflexivity|].
      pose proof (concat_lines (CR :: y)) as Ec. rewrite E in Ec. pose proof (lines_ok (CR :: y)) as Hok. rewrite E in Hok. inversion Hok as [|? ? [_ Hs] _]; subst.
      destruct s as [|d s]; [contradiction|]. cbn [concat app] in Ec. injection Ec as -> _. reflexivity. }
  destruct El as (s & t & El & Hs).
  set (r := mkreading [] [] [] (B "WARC/") n e [] [s]).
  assert (Hra : reads_as (lines_of ((B "WARC/" ++ n ++ e) ++ c :: y)) r t).
  { unfold reads_as, rd_lines, rd_vline, r. cbn [rd_before rd_pfx rd_ws rd_tag rd_num rd_nl rd_heads rd_stop map concat app].
    split; [exact El|]. split; [constructor|]. split; [cbn; lia|]. split; [exact L2|]. split; [exact Hk|]. split; [split; constructor|]. right. exists s. auto. }
  destruct (C71_reading_gives_record gz st p _ b r t Hr Hra) as (st1 & E & He1 & Hr1 & _).
  exists (rd_record r), st1. cbn [rd_before rd_pfx r concat List.length] in E. rewrite !Nat.add_0_r in E. split; [exact E|].
  assert (Er : rd_record r = mkrec (RWarc (w_version w)) [] (if bytes_eqb e CRLF then [] else [ErrVersionNl e]) None CF_stream true).
  { unfold rd_record, rd_headers, rd_errors, r, remark. cbn [rd_before rd_pfx rd_ws rd_tag rd_num rd_nl rd_heads rd_stop map concat app junk_lines filter]. rewrite Ev. destruct (bytes_eqb e CRLF); reflexivity. }
  split; [exact Er|]. rewrite Er. assert (Hin : in_payload st1 [] (concat t)) by (split; [exact He1|exact Hr1]).
  match goal with |- context [rec_content ?x _] => rewrite (rec_content_payload x st1 [] _ eq_refl eq_refl Hin) end. reflexivity.
Qed.

(** ** Cases *)
Definition nl_record : source := FromTuple (B "WARC/1.0") [(B "WARC-Type", B "metadata"); (B "X", B "")] (Some (B "text/plain")) (B "one" ++ [LF] ++ B "two").
Definition nl_plain : source := FromTuple (B "WARC/1.0") [] None (B "abc").
Example C100_case : sources_ok [(nl_record, CRLF); (nl_record, [LF]); (nl_plain, [LF])] /\
  List.length (remarks [LF] (source_wrec nl_record)) = 5.
Proof.
  assert (H : source_ok nl_record).
  { split; [left; reflexivity|]. split; [|split].
    - constructor; [|constructor; [|constructor]]; (split; [apply literal_name_ok; reflexivity|]); (split; [apply (no_byteb_sound 10); reflexivity|reflexivity]).
    - constructor; [|constructor; [|constructor]]; intros _; (split; intro E; discriminate E).
    - split; [apply (no_byteb_sound 10); reflexivity|reflexivity]. }
  split; [|reflexivity]. constructor; [split; [exact H|left; reflexivity]|]. constructor; [split; [exact H|right; reflexivity]|]. constructor; [split|constructor]; [|right; reflexivity].
  split; [left; reflexivity|]. repeat split; constructor.
Qed.
Example C100_odd_case : odd_newline [CR] /\ odd_newline [] /\ odd_newline [CR; CR; LF] /\ odd_newline (B " " ++ CRLF) /\
  fst (read_record (new_stream SPlain (mkfile (text_with [CR; CR; LF] (source_wrec nl_record)) 0 true) PWarc) true) = Raise ETypeError /\
  fst (read_record (new_stream SPlain (mkfile (text_with (B "|") (source_wrec nl_plain)) 0 true) PWarc) true) = Ret (Some 33, None, [ErrIgnored (B "WARC/1.0|Content-Length: 3||abc||")]).
Proof.
  split; [left; apply (no_byteb_sound 10); reflexivity|]. split; [left; intros []|]. split; [right; exists [CR; CR], []; split; [reflexivity|]; split; [apply (no_byteb_sound 10); reflexivity|split; discriminate]|].
  split; [right; exists (B " " ++ [CR]), []; split; [reflexivity|]; split; [apply (no_byteb_sound 10); reflexivity|split; discriminate]|]. split; reflexivity.
Qed.
Example C100_doubled_case :
  fst (for_read_records None true look [] (new_stream SPlain (mkfile (text_with [LF; LF] (source_wrec nl_record)) 0 true) PWarc)) =
    (Ret tt, [Seen (Some 0) (B "WARC/1.0") [] [ErrVersionNl [LF]] None [];
              SeenEnd (Some 91) [ErrIgnored (B "WARC-Type: metadata" ++ [LF]); ErrIgnored (B "X: " ++ [LF]); ErrIgnored (B "Content-Type: text/plain" ++ [LF]); ErrIgnored (B "Content-Length: 7" ++ [LF]);
                       ErrIgnored (B "one" ++ [LF]); ErrIgnored (B "two" ++ [LF]); ErrTooMany]]).
Proof. vm_compute. reflexivity. Qed.
