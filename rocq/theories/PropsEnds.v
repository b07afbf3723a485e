(** C60: which tools end on which files - the tools that look into HTTP messages, and those not covered in PropsPlace. *)
From Verif Require Export PropsPlace PropsAnyList PropsA2WAny.
From Coq Require Import String List Lia ZArith.
Open Scope list_scope.

(** ** Specification *)
(** no part of the text makes the HTTP parser loop for ever (by C40 it takes a negative chunk size) *)
Definition quiet (http_gz : bytes -> outcome bytes) (text : bytes) : Prop :=
  forall a c b m, text = a ++ c ++ b -> (m = Http.new_response [] [] \/ m = Http.new_request []) -> Http.feed http_gz m c <> Diverge.
(** nor does any suffix make the WARC reader loop for ever (C09) *)
Definition ends_reading (text : bytes) : Prop := forall k, ~ hangs (skipn k text).

(** ** Lemmas *)
Definition suffix (t text : bytes) : Prop := exists p, text = p ++ t.
Lemma suffix_refl t : suffix t t. Proof. exists []. reflexivity. Qed.
Lemma suffix_trans a b c : suffix a b -> suffix b c -> suffix a c.
Proof. intros [p ->] [q ->]. exists (q ++ p). rewrite app_assoc. reflexivity. Qed.
Lemma suffix_ends a b : suffix a b -> ends_reading b -> ends_reading a.
Proof. intros [p ->] H k Hk. apply (H (List.length p + k)). rewrite <- skipn_skipn', skipn_app, skipn_all, Nat.sub_diag. exact Hk. Qed.
Lemma suffix_quiet hg a b : suffix a b -> quiet hg b -> quiet hg a.
Proof. intros [p ->] H x c y m -> Hm. apply (H (p ++ x) c y m); [rewrite app_assoc; reflexivity|exact Hm]. Qed.
Lemma prefix_quiet hg a b : quiet hg (a ++ b) -> quiet hg a.
Proof. intros H x c y m -> Hm. apply (H x c (y ++ b) m); [rewrite <- !app_assoc; reflexivity|exact Hm]. Qed.
Lemma not_hangs text : ends_reading text -> ~ hangs text. Proof. intro H. apply (H 0). Qed.
Lemma reads_suffix text r more : reads_as (lines_of text) r more -> suffix (concat more) text.
Proof. intros (El & _). exists (concat (rd_lines r)). transitivity (concat (rd_lines r ++ more)); [rewrite <- El; symmetry; apply concat_lines|apply concat_app]. Qed.

(** a run of a tool over one text *)
Lemma tool_run_ends (visit : reading -> bytes -> effect) text out o : tool_run visit text out o ->
  (forall r rest, suffix (e_text (visit r rest)) rest \/ e_end (visit r rest) <> Ret tt) ->
  ends_reading text -> (forall r rest, suffix rest text -> e_end (visit r rest) <> Diverge) -> o <> Diverge.
Proof.
  intros H Hs. induction H as [text Hv H5|text Hv H5|text before l t El Hb1 Hb2 Hl|text before l t pfx ws tag num nl El Hb1 Hb2 Has Hn
    |text before l t pfx ws tag num nl El Hb1 Hb2 Has Hn Hst|text r more Hra He|text r more Hra He Hlt|text r more body0 after out o Hra He Em Hd Hrun IH];
    intros Hh Hv0; try discriminate.
  - destruct (not_hangs _ Hh). exists before, l, t, pfx, ws, tag, num, nl. auto 8.
  - apply Hv0. exact (reads_suffix _ _ _ Hra).
  - pose proof (reads_suffix _ _ _ Hra) as S1. destruct (Hs r (concat more)) as [S2|S2]; [|congruence]. rewrite Em in S2.
    assert (S3 : suffix after text) by (eapply suffix_trans; [exists body0; reflexivity|]; eapply suffix_trans; eassumption).
    apply IH; [eapply suffix_ends; eassumption|]. intros r' rest' S4. apply Hv0. eapply suffix_trans; eassumption.
Qed.
Lemma files_run_ends {A} (run : A -> bytes -> outcome unit -> Prop) fs out o : files_run run fs out o ->
  Forall (fun f => forall out o, run f out o -> o <> Diverge) fs -> o <> Diverge.
Proof.
  induction 1 as [|f fs out o H Ho|f fs out out2 o H Hr IH]; intro Hf; [discriminate| |]; inversion Hf as [|? ? H1 H2]; subst; [exact (H1 _ _ H)|exact (IH H2)].
Qed.
Lemma whole_is strict r rest p more d : whole strict r rest = Some (p, more, d) -> rest = p ++ more.
Proof. apply whole_parts. Qed.
Lemma content_suffix strict r rest use : suffix (e_text (PropsAnyFile.with_content strict r rest use)) rest \/ e_end (PropsAnyFile.with_content strict r rest use) <> Ret tt.
Proof.
  unfold PropsAnyFile.with_content. destruct (whole strict r rest) as [[[p more] d]|] eqn:E; [left|right; discriminate]. exists p. exact (whole_parts _ _ _ _ _ _ E).
Qed.
Lemma copied_suffix strict gz r rest : suffix (e_text (copied strict gz r rest)) rest \/ e_end (copied strict gz r rest) <> Ret tt.
Proof.
  unfold copied. destruct (whole strict r rest) as [[[p more] d]|] eqn:E; [|right; discriminate]. destruct (_ && _ && _); [right; discriminate|left].
  exists p. exact (whole_parts _ _ _ _ _ _ E).
Qed.
Lemma copied_ends strict gz r rest : e_end (copied strict gz r rest) <> Diverge.
Proof. unfold copied. destruct (whole strict r rest) as [[[p more] d]|]; [|discriminate]. destruct (_ && _ && _); discriminate. Qed.
Lemma content_ends_if strict r rest use : (forall p b, rest = p ++ b -> snd (use (rd_wrec r p)) <> Diverge) -> e_end (PropsAnyFile.with_content strict r rest use) <> Diverge.
Proof. intro H. unfold PropsAnyFile.with_content. destruct (whole strict r rest) as [[[p more] d]|] eqn:E; [|discriminate]. apply (H p more). exact (whole_parts _ _ _ _ _ _ E). Qed.
Lemma if_returns_ends {A} (x : outcome A) use : x <> Diverge -> snd (if_returns x use) <> Diverge.
Proof. destruct x; [discriminate|discriminate|congruence]. Qed.
Lemma decode_step_ends hg uz ug ct content b : quiet hg (content ++ b) -> decode_step hg uz ug ct content <> Diverge.
Proof.
  intro Hq. unfold decode_step, http_message. destruct (is_some_eq ct HTTP_REQUEST_TYPE).
  - pose proof (Hq [] content b _ eq_refl (or_intror eq_refl)) as H. destruct (Http.feed hg _ content) as [[m left]|e|]; cbn [bind]; [|discriminate|congruence].
    destruct left; [|discriminate]. destruct (Http.complete _); [|discriminate]. destruct (Http.decoded_message uz ug _) as [d|e|] eqn:E; cbn [bind]; [discriminate|discriminate|].
    unfold Http.decoded_message in E. destruct (Http.decoded_start _) as [x|e|] eqn:E2; cbn [bind] in E; [|discriminate|].
    + destruct (match Http.h_encoding _ with Some _ => _ | None => _ end); discriminate.
    + unfold Http.decoded_start in E2. repeat match type of E2 with context [match ?x with _ => _ end] => destruct x end; discriminate.
  - destruct (is_some_eq ct HTTP_RESPONSE_TYPE); [|discriminate].
    pose proof (Hq [] content b _ eq_refl (or_introl eq_refl)) as H. destruct (Http.feed hg _ content) as [[m left]|e|]; cbn [bind]; [|discriminate|congruence].
    destruct left; [|discriminate]. destruct (Http.complete _); [|discriminate]. destruct (Http.decoded_message uz ug _) as [d|e|] eqn:E; cbn [bind]; [discriminate|discriminate|].
    unfold Http.decoded_message in E. destruct (Http.decoded_start _) as [x|e|] eqn:E2; cbn [bind] in E; [|discriminate|].
    + destruct (match Http.h_encoding _ with Some _ => _ | None => _ end); discriminate.
    + unfold Http.decoded_start in E2. repeat match type of E2 with context [match ?x with _ => _ end] => destruct x end; discriminate.
Qed.
Lemma http_mime_ends hg content b : quiet hg (content ++ b) -> http_mime hg content <> Diverge.
Proof.
  intro Hq. unfold http_mime. pose proof (Hq [] content b _ eq_refl (or_introl eq_refl)) as H. destruct (Http.feed hg _ content) as [[m left]|e|]; cbn [bind]; [|discriminate|congruence].
  destruct left; [|discriminate]. destruct (Http.complete _); discriminate.
Qed.
Lemma copy_visit_ok hg uz ug strict gz decode r rest :
  (suffix (e_text (copy_visit hg uz ug strict gz decode r rest)) rest \/ e_end (copy_visit hg uz ug strict gz decode r rest) <> Ret tt) /\
  (decode = false \/ quiet hg rest -> e_end (copy_visit hg uz ug strict gz decode r rest) <> Diverge).
Proof.
  unfold copy_visit. destruct (decode && is_resp r) eqn:Ed.
  - split; [apply content_suffix|]. intros [->|Hq]; [discriminate|]. apply content_ends_if. intros p b ->. apply if_returns_ends. eapply decode_step_ends. exact Hq.
  - split; [apply copied_suffix|]. intros _. apply copied_ends.
Qed.
Lemma filter_visit_ok hg search strict opt invert r rest :
  (suffix (e_text (filter_visit hg search strict opt invert r rest)) rest \/ e_end (filter_visit hg search strict opt invert r rest) <> Ret tt) /\
  (opt <> FHttpType \/ quiet hg rest -> e_end (filter_visit hg search strict opt invert r rest) <> Diverge).
Proof.
  assert (C : forall b, (suffix (e_text (if_chosen b strict r rest)) rest \/ e_end (if_chosen b strict r rest) <> Ret tt) /\ e_end (if_chosen b strict r rest) <> Diverge).
  { intro b. unfold if_chosen. destruct b; [split; [apply copied_suffix|apply copied_ends]|split; [left; apply suffix_refl|discriminate]]. }
  assert (N : (suffix (e_text (nothing r rest)) rest \/ e_end (nothing r rest) <> Ret tt) /\ e_end (nothing r rest) <> Diverge) by (split; [left; apply suffix_refl|discriminate]).
  unfold filter_visit. destruct opt; try (split; [apply C|intros _; apply C]).
  - destruct (header_of _ _); [split; [apply C|intros _; apply C]|]. split; [apply content_suffix|]. intros _. apply content_ends_if. discriminate.
  - destruct (is_resp r); [|split; [apply N|intros _; apply N]]. destruct (header_of _ _) as [ct|]; [|split; [apply content_suffix|intros _; apply content_ends_if; discriminate]].
    destruct (startswith _ ct); [|split; [apply N|intros _; apply N]]. split; [apply content_suffix|]. intros [H|Hq]; [congruence|]. apply content_ends_if. intros p b ->.
    apply if_returns_ends. eapply http_mime_ends. exact Hq.
  - split; [apply content_suffix|]. intros _. apply content_ends_if. discriminate.
Qed.
(** arc2warc *)
Lemma concat_suffix ls before more text : lines_of text = ls -> ls = before ++ more -> suffix (concat more) text.
Proof. intros E1 E2. exists (concat before). transitivity (concat (before ++ more)); [rewrite <- E2, <- E1; symmetry; apply concat_lines|apply concat_app]. Qed.
Lemma finds_suffix mixed names text n r len more names' : finds mixed names text (FRec n r len more) names' -> suffix more text.
Proof.
  intro H. inversion H as [f Hw Hf|f nn Hw Hf]; subst.
  - inversion Hf as [| | | |r0 m0 Hra]; subst. exact (reads_suffix _ _ _ Hra).
  - inversion Hf as [|r0 l0 m0 n0 Hra|]; subst. inversion Hra as [| | |before line more0 vs El| | | |before line more0 vs k El]; subst.
    + apply (concat_suffix _ (before ++ [line]) m0 text eq_refl). rewrite El, <- app_assoc. reflexivity.
    + apply (concat_suffix _ (before ++ line :: firstn 2 more0) (skipn 2 more0) text eq_refl). rewrite El, <- app_assoc. cbn [app]. rewrite firstn_skipn. reflexivity.
Qed.
Lemma finds_hangs mixed names text names' : finds mixed names text FHang names' -> mixed = true /\ hangs text.
Proof.
  intro H. inversion H as [f Hw Hf|f nn Hw Hf]; subst.
  - split; [destruct mixed; [reflexivity|discriminate]|]. inversion Hf as [| | |before l t pfx ws tag num nl El Hb1 Hb2 Has Hn Hst|]; subst. exists before, l, t, pfx, ws, tag, num, nl. auto 8.
  - inversion Hf.
Qed.
Lemma piece_is len more p rest d : piece len more = Some (p, rest, d) -> more = p ++ rest.
Proof.
  unfold piece. destruct len as [z|]; [|intro H; injection H as <- <- _; rewrite app_nil_r; reflexivity].
  destruct (0 <=? z)%Z; [intro H; injection H as <- <- _; symmetry; apply firstn_skipn|]. destruct (z =? -1)%Z; [|discriminate].
  intro H. injection H as <- <- _. rewrite app_nil_r. reflexivity.
Qed.
Lemma decided_ends hg res rsp url ct content b o : decided hg res rsp url ct content o -> quiet hg (content ++ b) -> o <> Diverge.
Proof.
  intros H Hq. destruct H as [T1|e T1|T1 T2|e T1 T2|t T1 T2 Et H|t T1 T2 Et H|t e T1 T2 Et H|t T1 T2 Et H|T1 T2 Hn]; try discriminate.
  destruct (Hq [] content b _ eq_refl (or_introl eq_refl) H).
Qed.
Lemma turns_ends uuid clock hg gz output fields res rsp s r len more x s' : turns uuid clock hg gz output fields res rsp s r len more x s' ->
  (e_end x = Ret tt -> suffix (e_text x) more) /\ (quiet hg more -> e_end x <> Diverge).
Proof.
  assert (K : forall p rest d, piece len more = Some (p, rest, d) -> suffix rest more) by (intros p rest d E; exists p; exact (piece_is _ _ _ _ _ E)).
  intros [v d _ ->|y t _ H|v ls y t _ H].
  - unfold warc_copy. destruct (piece (Some d) more) as [[[p rest] d']|] eqn:E; [|split; discriminate]. destruct (_ && _); [split; discriminate|].
    split; [intros _; exact (K _ _ _ eq_refl)|discriminate].
  - inversion H as [E|url date Eu Ed Hd|url date text Eu Ed Hd Hp|url date text p Eu Ed Hd Hp Ect|url date text p rest d ct o Eu Ed Hd Hp Ect Hk Ho
    |url date text p rest d ct type ct' Eu Ed Hd Hp Ect Hk Ho|url date text p rest d ct type ct' info Eu Ed Hd Hp Ect Hk Ho]; subst; try (split; discriminate).
    + split; [destruct o; [destruct Ho|discriminate|discriminate]|]. intro Hq. rewrite (piece_is _ _ _ _ _ Hp) in Hq. pose proof (decided_ends _ _ _ _ _ _ _ _ Hk Hq) as X.
      destruct o; [destruct Ho|discriminate|congruence].
    + split; [intros _; exact (K _ _ _ Hp)|discriminate].
  - inversion H; subst; try (split; discriminate). split; [intros _; eapply K; eassumption|discriminate].
Qed.
Lemma a2w_run_ends uuid clock hg gz output fields res rsp s names text out o s' : a2w_run uuid clock hg gz output fields res rsp s names text out o s' ->
  ends_reading text -> quiet hg text -> o <> Diverge.
Proof.
  induction 1 as [s names text n names' H|s names text n e es names' H|s names text e names' H|s names text names' H|s names text n r len more names' x s' H Ht Hx
    |s names text n r len more names' x s' H Ht Hx Hlt|s names text n r len more names' x s' body after out o s'' H Ht Hx Etx Hbd Hrun IH]; intros He Hq; try discriminate.
  - destruct (not_hangs _ He). exact (proj2 (finds_hangs _ _ _ _ H)).
  - apply (turns_ends _ _ _ _ _ _ _ _ _ _ _ _ _ _ Ht). eapply suffix_quiet; [eapply finds_suffix; exact H|exact Hq].
  - assert (S : suffix after text).
    { eapply suffix_trans; [exists body; reflexivity|]. rewrite <- Etx. eapply suffix_trans; [apply (turns_ends _ _ _ _ _ _ _ _ _ _ _ _ _ _ Ht); exact Hx|eapply finds_suffix; exact H]. }
    apply IH; [eapply suffix_ends; eassumption|eapply suffix_quiet; eassumption].
Qed.
Lemma a2w_all_ends uuid clock hg gz output fields res rsp s texts out o : a2w_all uuid clock hg gz output fields res rsp s texts out o ->
  Forall ends_reading texts -> Forall (quiet hg) texts -> o <> Diverge.
Proof.
  induction 1 as [s|s text texts out o s' Hr Ho|s text texts out out2 o s' Hr Hall IH]; intros He Hq; [discriminate| |]; inversion He; inversion Hq; subst.
  - eapply a2w_run_ends; eassumption.
  - apply IH; assumption.
Qed.
Lemma run_of_ends mixed shown pos names text items o : run_of mixed shown pos names text items o -> (mixed = true -> ends_reading text) -> o <> Diverge.
Proof.
  induction 1 as [pos names text n errs names' H|pos names text e names' H|pos names text names' H|pos names text n r d more names' H Hlt
    |pos names text n r d body after names' items o H Hd Hrun IH|pos names text n r more names' items o H Hrun IH]; intro He; try discriminate.
  - destruct (finds_hangs _ _ _ _ H) as [Hm Hh]. destruct (not_hangs _ (He Hm) Hh).
  - apply IH. intro Hm. eapply suffix_ends; [|exact (He Hm)]. eapply suffix_trans; [exists body; reflexivity|eapply finds_suffix; exact H].
  - apply IH. intro Hm. eapply suffix_ends; [|exact (He Hm)]. eapply finds_suffix. exact H.
Qed.

(** ** C60 *)
(** iterating over any text with the reader for mixed files ends unless the WARC reader hangs on a suffix; with the ARC reader it always ends *)
Theorem C60_mixed_iteration_ends : forall (mixed gz : bool) (st : stream) (pos : nat) (text : bytes) (names : list bytes) (offsets : bool),
  ready_any mixed gz st pos text names -> Forall plain_value names -> (mixed = true -> ends_reading text) ->
  fst (fst (list_records st None offsets)) <> Diverge.
Proof.
  intros mixed gz st pos text names b Hr Hn He. destruct (list_records st None b) as [[o items] st'] eqn:E. cbn [fst].
  apply (run_of_ends mixed (b && negb gz) pos names text items o); [|exact He]. apply (C78_whole_file mixed gz st pos text names b items o Hr Hn). exists st'. exact E.
Qed.
(** warc2warc and warcfilter, with all options *)
Theorem C60_copying_ends : forall gunzip http_gz unzlib ungzip gz decode search opt invert (files : list (input * bytes)),
  Forall (fun f => file_holds gunzip (fst f) (snd f)) files -> Forall (fun f => ends_reading (snd f)) files ->
  (decode = false \/ Forall (fun f => quiet http_gz (snd f)) files -> fst (warc2warc gunzip http_gz unzlib ungzip gz decode (map fst files)) <> Diverge) /\
  (opt <> FHttpType \/ Forall (fun f => quiet http_gz (snd f)) files -> fst (warcfilter gunzip http_gz search opt invert (map fst files)) <> Diverge).
Proof.
  intros gunzip hg uz ug gz decode search opt invert files Hf He. rewrite Forall_forall in He. split; intro Hq.
  - destruct (warc2warc gunzip hg uz ug gz decode (map fst files)) as [o out] eqn:E. apply (C74_warc2warc_any_files _ _ _ _ _ _ _ _ _ Hf) in E.
    apply (files_run_ends _ _ _ _ E). apply Forall_forall. intros f Hi out' o' Hr. apply (tool_run_ends _ _ _ _ Hr).
    + intros r rest. apply copy_visit_ok.
    + exact (He f Hi).
    + intros r rest S. apply copy_visit_ok. destruct Hq as [Hq|Hq]; [left; exact Hq|right]. rewrite Forall_forall in Hq. eapply suffix_quiet; [exact S|exact (Hq f Hi)].
  - destruct (warcfilter gunzip hg search opt invert (map fst files)) as [o out] eqn:E. apply (C74_warcfilter_any_files _ _ _ _ _ _ _ _ Hf) in E.
    apply (files_run_ends _ _ _ _ E). apply Forall_forall. intros f Hi out' o' Hr. apply (tool_run_ends _ _ _ _ Hr).
    + intros r rest. apply filter_visit_ok.
    + exact (He f Hi).
    + intros r rest S. apply filter_visit_ok. destruct Hq as [Hq|Hq]; [left; exact Hq|right]. rewrite Forall_forall in Hq. eapply suffix_quiet; [exact S|exact (Hq f Hi)].
Qed.
(** arc2warc *)
Theorem C60_arc2warc_ends : forall gunzip http_gz uuid clock gz output fields resources responses files texts,
  Forall2 (file_holds gunzip) files texts -> Forall ends_reading texts -> Forall (quiet http_gz) texts ->
  fst (arc2warc gunzip http_gz uuid clock gz output fields resources responses files) <> Diverge.
Proof.
  intros gunzip hg uuid clock gz output fields res rsp files texts Hf He Hq. destruct (arc2warc gunzip hg uuid clock gz output fields res rsp files) as [o out] eqn:E.
  apply (C79_any_files gunzip hg uuid clock gz output fields res rsp files texts out o Hf) in E. exact (a2w_all_ends _ _ _ _ _ _ _ _ _ _ _ _ E He Hq).
Qed.
(** warcdump, warcextract and warcpayload *)
Lemma dump_errors_ends out r : fst (dump_errors out r) <> Diverge.
Proof. unfold dump_errors. destruct (r_errors r); discriminate. Qed.
Lemma dump_item_ends name out st it : fst (fst (dump_item name out st it)) <> Diverge /\ later st (snd (dump_item name out st it)).
Proof.
  unfold dump_item. destruct it as [[off [r|]] es]; [|destruct es; split; try discriminate; apply later_refl].
  assert (H : forall o0, fst (fst (fst (rec_dump true o0 r st))) <> Diverge /\ later st (snd (rec_dump true o0 r st))).
  { intro o0. unfold rec_dump. cbn [andb]. pose proof (content_ends r st) as [X Y]. 
    destruct (rec_content r st) as [[[[ct [body|]]|e|] r'] st']; cbn [fst snd] in *.
    all: repeat first [congruence | match goal with
      | |- context [let '(o, out) := dump_errors ?a ?b in _] => pose proof (dump_errors_ends a b); destruct (dump_errors a b) as [? ?]; cbn [fst snd] in *
      | |- context [match ?x with _ => _ end] => destruct x
      end | (split; [discriminate|assumption]) | (split; assumption)]. }
  specialize (H (print out (B "archive record at " ++ name ++ [58%N] ++ show_offset off))).
  destruct (rec_dump _ _ r st) as [[[[[]|e|] out'] r'] st']; cbn [fst snd] in *; destruct H as [H1 H2]; split; try discriminate; try assumption; congruence.
Qed.
Theorem C60_dump_ends : forall gunzip (files : list input), Forall (readable gunzip) files -> fst (warcdump gunzip files) <> Diverge.
Proof.
  intros gunzip files Hf. unfold warcdump. apply over_files_ends; [|exact Hf]. intros s name st Hp Hk Hn. unfold dump_file.
  pose proof (loop_ends (dump_item name) None true s st (dump_item_ends name) Hp Hk Hn) as Y. destruct (for_read_records None true (dump_item name) s st) as [[o c] st']. exact Y.
Qed.
Theorem C60_extract_ends : forall gunzip (i : input) (n : nat) (text : bytes), extract_holds gunzip i n text -> ~ hangs text ->
  fst (warcextract gunzip i (Z.of_nat n)) <> Diverge.
Proof.
  intros gunzip i n text Hi Hh. destruct (warcextract gunzip i (Z.of_nat n)) as [o out] eqn:E. apply (C76_warcextract_any_file gunzip i n text out o Hi) in E.
  inversion E as [| | | |t0 before l t pfx ws tag num nl El Hb1 Hb2 Has Hn Hst|t0 r more Hra]; subst; try discriminate.
  - intros _. apply Hh. exists before, l, t, pfx, ws, tag, num, nl. auto 8.
  - unfold extract_visit. destruct (whole true r (concat more)) as [[[p ?] ?]|]; discriminate.
Qed.
Theorem C60_payload_ends : forall gunzip client (i : input) (n : nat) (text : bytes), file_holds gunzip (cut_file i n) text -> ~ hangs text ->
  (forall p, client p <> Diverge) -> fst (warcpayload gunzip client i (Z.of_nat n)) <> Diverge.
Proof.
  intros gunzip client i n text Hi Hh Hc. destruct (warcpayload gunzip client i (Z.of_nat n)) as [o out] eqn:E. apply (C76_warcpayload_any_file gunzip client i n text out o Hi) in E.
  inversion E as [| | | |t0 before l t pfx ws tag num nl El Hb1 Hb2 Has Hn Hst|t0 r more Hra]; subst; try discriminate.
  - intros _. apply Hh. exists before, l, t, pfx, ws, tag, num, nl. auto 8.
  - assert (C : snd (copied_out r (concat more)) <> Diverge) by (unfold copied_out; destruct (whole true r (concat more)) as [[[p ?] ?]|]; [cbn [snd]; destruct (_ && _)|]; discriminate).
    unfold payload_visit. destruct (is_resp r); [|exact C]. destruct (header_of _ _); [|cbn [snd]; destruct (whole _ _ _); discriminate]. destruct (startswith _ _); [|exact C].
    destruct (whole true r (concat more)) as [[[p ?] ?]|]; [|discriminate]. apply if_returns_ends. apply Hc.
Qed.
(** ** C60: concrete cases *)
Fixpoint quiet_from (hg : bytes -> outcome bytes) (n : nat) (text : bytes) : bool :=
  match n with
  | O => true
  | S n' => forallb (fun k => match Http.feed hg (Http.new_response [] []) (firstn k text), Http.feed hg (Http.new_request []) (firstn k text) with
      | Diverge, _ => false | _, Diverge => false | _, _ => true end) (seq 0 (S (List.length text))) && quiet_from hg n' (skipn 1 text)
  end.
Lemma quiet_from_sound hg : forall n text a c b, quiet_from hg n text = true -> List.length a < n -> text = a ++ c ++ b ->
  forall m, (m = Http.new_response [] [] \/ m = Http.new_request []) -> Http.feed hg m c <> Diverge.
Proof.
  induction n as [|n IH]; intros text a c b H L E m Hm; [lia|]. cbn [quiet_from] in H. apply andb_true_iff in H as [H1 H2]. destruct a as [|x a].
  - rewrite forallb_forall in H1. specialize (H1 (List.length c)). cbn [app] in E. subst text. rewrite firstn_app, Nat.sub_diag, firstn_all, firstn_O, app_nil_r in H1.
    assert (I : In (List.length c) (seq 0 (S (List.length (c ++ b))))) by (apply in_seq; rewrite app_length; lia). specialize (H1 I). intro D.
    destruct Hm as [->| ->]; rewrite D in H1; [discriminate|]. destruct (Http.feed hg (Http.new_response [] []) c); discriminate.
  - subst text. apply (IH (a ++ c ++ b) a c b H2); [cbn in L; lia|reflexivity|exact Hm].
Qed.
Lemma quietb_sound hg text : quiet_from hg (S (List.length text)) text = true -> quiet hg text.
Proof. intros H a c b m E Hm. apply (quiet_from_sound hg _ text a c b H); [subst text; rewrite !app_length; lia|exact E|exact Hm]. Qed.
Definition http_text (size : string) : bytes :=
  B "WARC/1.0" ++ CRLF ++ B "WARC-Type: response" ++ CRLF ++ B "Content-Type: application/http;msgtype=response" ++ CRLF ++
  B "Content-Length: 56" ++ CRLF ++ CRLF ++
  B "HTTP/1.1 200 OK" ++ CRLF ++ B "Transfer-Encoding: chunked" ++ CRLF ++ CRLF ++ B size ++ CRLF ++ B "abc" ++ CRLF.
Example C60_http_case : ends_reading (http_text "05") /\ quiet no_gz (http_text "05").
Proof.
  split; [|apply quietb_sound; vm_compute; reflexivity]. set (text := http_text "05"). intros k H. apply hangs_wparse in H.
  assert (F : forallb (fun k => match wparse (lines_of (skipn k text)) with WHang => false | _ => true end) (seq 0 (List.length text)) = true) by (vm_compute; reflexivity).
  destruct (Nat.ltb_spec k (List.length text)) as [Hk|Hk].
  - rewrite forallb_forall in F. specialize (F k ltac:(apply in_seq; lia)). unfold bytes in *. rewrite H in F. discriminate.
  - rewrite skipn_all2 in H by exact Hk. discriminate.
Qed.
(** a negative chunk size makes warc2warc -D and warcfilter -H hang, and no other option of these *)
Example C60_negative_chunk_case : let files := [mkin (B "a.warc") (http_text "-5")] in
  fst (warc2warc (fun x => x) no_gz (fun _ => None) (fun _ => None) None true files) = Diverge /\
  fst (warc2warc (fun x => x) no_gz (fun _ => None) (fun _ => None) None false files) = Ret tt /\
  fst (warcfilter (fun x => x) no_gz (fun _ => true) FHttpType false files) = Diverge /\
  fst (warcfilter (fun x => x) no_gz (fun _ => true) FUrl false files) = Ret tt.
Proof. vm_compute. auto. Qed.
