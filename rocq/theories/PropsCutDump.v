(** C69 for warcdump: reading calls that fail, and compressed archives that are cut off *)
From Verif Require Export FaultDump PropsCutTools PropsDump.
From Coq Require Import String List Lia ZArith.
Open Scope list_scope.

(** ** Specification: what warcdump prints of a compressed archive of which only the first [k] bytes can be decompressed: a record that lies in them is dumped;
    of the first that does not, if its head does, the headers are printed *)
Definition headers_only (hs : list header) : list bytes := B "Headers:" :: map (fun h => TAB :: fst h ++ B ":" ++ snd h) hs.
Fixpoint cut_dumped (name : bytes) (a : archive) (k : nat) : list bytes :=
  match a with
  | [] => []
  | (w, s) :: t =>
      if Nat.leb (List.length (WarcSpec.head_text (w_version w) (w_headers w))) k then
        (B "archive record at " ++ name ++ B ":None") :: headers_only (w_headers w) ++
        (if Nat.leb (List.length (wrec_text w)) k
         then B "Content Headers:" :: content_lines (match header_of "Content-Type" w with Some ct => ct | None => [] end) (w_body w) ++ cut_dumped name t (k - List.length (wrec_text w) - List.length s)
         else [])
      else []
  end.

(** ** Lemmas *)
Lemma dump_item_eq name out st it : dump_item name out st it =
  match it with
  | (off, Some r, _) =>
      let out1 := dump_headers (print out (B "archive record at " ++ name ++ [58%N] ++ show_offset off)) r in
      after_step (rec_content r st) out1 (fun c r' st' => and_go_on (dump_rest out1 r r' c) st')
  | (_, None, []) => (Ret true, print (print out []) (B "note: no errors encountered in tail of file"), st)
  | (off, None, errs) =>
      (Ret true,
       fold_left (fun out e => print out ([9; 32]%N ++ show_perr e)) errs
         (print out (B "warc errors at " ++ name ++ [58%N] ++ dec_nat (match off with Some n => n | None => 0 end))), st)
  end.
Proof.
  destruct it as [[off [r|]] errs]; [|reflexivity]. cbv zeta. cbn [dump_item]. unfold rec_dump.
  destruct (rec_content r st) as [[[[ct body]|e|] r'] st']; cbn [after_step]; try reflexivity. unfold dump_rest. cbn [fst snd].
  destruct ct as [ct|]; [|reflexivity]. destruct body as [body|]; [|reflexivity]. destruct (dump_errors _ r') as [[u|e|] o]; reflexivity.
Qed.
Lemma pre_print out x : Pre out (print out x).
Proof. eexists. reflexivity. Qed.
Lemma pre_headers out r : Pre out (dump_headers out r).
Proof. rewrite headers_text. eexists. reflexivity. Qed.
Lemma pre_errors out r : Pre out (snd (dump_errors out r)).
Proof. unfold dump_errors. destruct (r_errors r); [apply Pre_refl|apply pre_print]. Qed.
Lemma pre_rest out r r' c : Pre out (snd (dump_rest out r r' c)).
Proof.
  unfold dump_rest. destruct (fst c) as [ct|]; [|apply pre_print]. destruct (snd c) as [body|]; [|eapply Pre_trans; apply pre_print].
  eapply Pre_trans; [|apply pre_errors]. do 6 (eapply Pre_trans; [apply pre_print|]). apply pre_print.
Qed.
Lemma pre_fold {A} (f : A -> bytes) l out : Pre out (fold_left (fun out x => print out (f x)) l out).
Proof. rewrite print_fold. eexists. reflexivity. Qed.
Lemma go_on_tame out y x : Pre out (snd x) -> tame out y (and_go_on x y).
Proof. intro H. destruct x as [[u|e|] o]; (split; [apply later_refl|exact H]). Qed.
Lemma dump_tame name out y it : tame out y (dump_item name out y it).
Proof.
  rewrite dump_item_eq. destruct it as [[off [r|]] errs].
  - cbv zeta. set (out1 := dump_headers _ r). assert (T : tame out1 y (after_step (rec_content r y) out1 (fun c r' st' => and_go_on (dump_rest out1 r r' c) st'))).
    { apply (step_tame (fun _ => True)); [apply content_any|]. intros c r' y' _. apply go_on_tame, pre_rest. }
    split; [exact (proj1 T)|]. eapply Pre_trans; [|exact (proj2 T)]. eapply Pre_trans; [apply pre_print|apply pre_headers].
  - destruct errs as [|e0 errs]; (split; [apply later_refl|]); cbn [fst snd]; [eapply Pre_trans; apply pre_print|]. eapply Pre_trans; [apply pre_print|]. apply pre_fold.
Qed.

(** ** The theorems *)
(** warcdump over a file some of whose calls fail: what is printed is what would be printed without the failure, or the beginning of it, and then the exception
    ends it *)
Theorem C69_dumping : forall (F : Type) (ops : fops F) (same_file : F -> file -> Prop) (failure : exn -> Prop) (unreadable : file -> Prop)
    (budget : nat) (kind : skind) (p : parser) (offsets : bool) (bad : F) (good : file) (out name : bytes),
  honest ops same_file failure unreadable ->
  (forall f f', unreadable f -> f_data f' = f_data f -> f_strict f' = f_strict f -> f_pos f <= f_pos f' -> unreadable f') ->
  same_file bad good -> file_fuel good <= budget ->
  let '(result, printed, _) := x_for_read_records ops budget None offsets (x_dump_item ops name) out (x_new kind bad p) in
  let '(result0, printed0, st0) := for_read_records None offsets (dump_item name) out (new_stream kind good p) in
  (result = result0 /\ printed = printed0) \/
  (exists e more, result = Raise e /\ failure e /\ printed0 = printed ++ more /\ (result0 <> Diverge -> unreadable (s_fh st0))).
Proof.
  intros F ops R0 fault lost0 budget kind p offsets bad good out name Hh0 Hl0 H Hb.
  set (x := x_new kind bad p). set (y := new_stream kind good p).
  assert (Hr : List.length (StreamFacts.rest y) + 2 <= file_fuel good) by (exact (rest_len y)).
  assert (HR : Rst R0 x y) by (repeat split; exact H).
  assert (Hf : FaultFacts.fits budget y) by (unfold FaultFacts.fits; lia).
  assert (L : forall s st it, later st (snd (dump_item name s st it))) by (intros s st it; exact (proj1 (dump_tame name s st it))).
  assert (E : for_read_records None offsets (dump_item name) out y = read_loop budget None offsets (dump_item name) out y).
  { unfold for_read_records. apply (loop_fuel _ _ L); [exact (rest_fuel y)|unfold bytes in *; lia]. }
  rewrite E. unfold x_for_read_records.
  assert (Hb2 : forall s1 s2 a b it, s1 = s2 -> Rst R0 a b -> FaultFacts.fits budget b -> agl R0 fault lost0 eq Pre (x_dump_item ops name s1 a it) (dump_item name s2 b it)).
  { intros s1 s2 a b it <- Ha Hfb. rewrite dump_item_eq. unfold x_dump_item. destruct it as [[off [r|]] errs].
    - cbv zeta. set (out1 := dump_headers _ r). apply (ag_step budget R0 fault lost0 Hl0 (fun _ => True) out1 b); [apply (ag_content ops R0 fault lost0 Hh0 Hl0), Ha|apply content_any|exact Hfb| |].
      + intros c r1 a1 b1 _ Ha1 _. destruct (dump_rest out1 r r1 c) as [[u|e|] o]; left; (split; [reflexivity|]); (split; [reflexivity|]); intros _; exact Ha1.
      + intros c r1 b1 _. apply go_on_tame, pre_rest.
    - destruct errs; left; (split; [reflexivity|]); (split; [reflexivity|]); intros _; exact Ha. }
  pose proof (ag_loop ops budget R0 fault lost0 Hh0 Hl0 eq Pre Pre_refl Pre_trans (x_dump_item ops name) (dump_item name) Hb2 L (fun s st it _ => proj2 (dump_tame name s st it))
     offsets budget None out out x y eq_refl HR Hf) as A.
  destruct (x_read_loop ops budget budget None offsets (x_dump_item ops name) out x) as [[o h] x1].
  destruct (read_loop budget None offsets (dump_item name) out y) as [[o0 h0] y1].
  destruct A as [(A1 & A2 & _)|(e & s & A1 & A2 & A3 & (more & A4) & A6)]; cbn [fst snd] in *.
  - left. split; assumption.
  - right. exists e, more. subst s. repeat split; assumption.
Qed.

Lemma cut_dumped_0 name a : cut_dumped name a 0 = [].
Proof.
  destruct a as [|[w s] a]; [reflexivity|]. cbn [cut_dumped]. pose proof (head_some (w_version w) (w_headers w)) as Hh.
  destruct (Nat.leb_spec (List.length (WarcSpec.head_text (w_version w) (w_headers w))) 0) as [L|L]; [lia|reflexivity].
Qed.
Section CutDump.
  Variables (P X : bytes) (e : exn).
  Hypothesis HX : X <> [].
  Let k := List.length P.
  Notation same_cut := (cut_same P X e).
  Lemma dump_cut name x y w after out ct : all_bytes (w_body w) -> header_of "Content-Type" w = Some ct -> Rst same_cut x y -> in_payload y (w_body w) after ->
    let Z := x_dump_item cut_ops name out x (None, Some (handed w), []) in
    let first := (B "archive record at " ++ name ++ B ":None") :: headers_only (w_headers w) in
    if Nat.leb (List.length (w_body w)) (k - f_pos (s_fh y)) then
      fst Z = (Ret true, out ++ text_of (first ++ B "Content Headers:" :: content_lines ct (w_body w))) /\ exists y', used y (List.length (w_body w)) y' /\ Rst same_cut (snd Z) y'
    else fst Z = (Raise e, out ++ text_of first).
  Proof.
    intros Hb Hct HR Hi. cbv zeta. destruct (dump_item_record name out y None w after ct Hi Hb Hct) as (y2 & D & Hu). rewrite dump_item_eq in D. cbv zeta in D.
    unfold x_dump_item. set (out1 := dump_headers _ (handed w)) in *.
    assert (E1 : out1 = out ++ text_of ((B "archive record at " ++ name ++ B ":None") :: headers_only (w_headers w))).
    { unfold out1. rewrite headers_text, print_first. change (show_offset None) with (B "None"). rewrite <- app_assoc, <- text_of_app. reflexivity. }
    pose proof (there P X e _ _ HR) as Hth. fold k in Hth.
    destruct (content_cut P X e HX x y w after HR Hi) as (x' & r' & H1 & H2 & H3 & H4 & Q). fold k in Q. destruct (Nat.leb_spec (List.length (w_body w)) (k - f_pos (s_fh y))) as [L|L].
    - destruct Q as [Q1 Q2]. rewrite Q1. cbn [after_step].
      destruct (content_handed w y after Hi) as (r2 & D1 & D2 & D3 & D4 & D5).
      assert (Er : r2 = r').
      { pose proof (ag_content cut_ops same_cut (eq e) (cut_lost P) (cut_honest P X e HX) (later_cut P) (handed w) x y HR) as A. rewrite Q1, D1 in A. cbn [fst snd] in A.
        destruct A as [[A _]|(e' & A & _)]; [|discriminate]. injection A as A. symmetry. exact A. }
      rewrite D1, Er in D. cbn [after_step] in D. pose proof (f_equal fst D) as D'.
      split; [|eexists; split; [apply used_all|destruct (dump_rest out1 (handed w) r' (ctype w, Some (w_body w))) as [[u|e0|] o]; exact Q2]].
      etransitivity; [|etransitivity; [exact D'|]].
      + destruct (dump_rest out1 (handed w) r' (ctype w, Some (w_body w))) as [[u|e0|] o]; reflexivity.
      + unfold dump_step, dump_lines, header_lines, headers_only. rewrite Hct. change (show_offset None) with (B "None"). cbn [app]. rewrite <- app_assoc. reflexivity.
    - destruct (x_rec_content cut_ops (handed w) x) as [[o r2] x2]. cbn [fst snd] in Q. destruct Q as [-> _]. cbn [after_step fst]. rewrite E1. reflexivity.
  Qed.
  Lemma dump_loop_cut name budget a : forall fuel x y start out, archive_ok a -> Forall (fun p => has_type (fst p) /\ all_bytes (w_body (fst p))) a -> List.length a < fuel -> Rst same_cut x y ->
    List.length (P ++ X) + 2 <= budget ->
    at_text y start (archive_text a) -> start + List.length (archive_text a) = List.length (P ++ X) -> s_parser y = PWarc -> s_kind y = SGzipRecord ->
    exists x', x_read_loop cut_ops budget fuel None true (x_dump_item cut_ops name) out x = (Raise e, out ++ text_of (cut_dumped name a (k - start)), x').
  Proof.
    pose proof (X_some X HX) as X1. induction a as [|[w sep] a IH]; intros fuel x y start out Hok Hhon Hf HR Hb Hat Htot Hp Hk; (destruct fuel as [|fuel]; [cbn in Hf; lia|]); cbn [x_read_loop cut_dumped];
      pose proof (ag_record cut_ops budget same_cut (eq e) (cut_lost P) (cut_honest P X e HX) (later_cut P) x y true HR (cut_fits P X e budget x y HR Hb)) as A.
    - destruct (at_text_fresh _ _ _ Hat) as (st0 & Heq & He & Hr & Hpos & Hk0 & Hp0 & Hf0). rewrite Heq, (read_end st0 true He) in A; [|congruence|congruence|exact Hr].
      destruct A as [(A1 & A2)|(e' & A1 & <- & A2)]; destruct (x_read_record cut_ops budget x true) as [ox x1]; cbn [fst snd] in *; subst ox.
      + exfalso. specialize (A2 ltac:(discriminate)). pose proof (there P X e _ _ A2) as Hth. assert (Q : f_pos (s_fh st0) = start) by exact Hpos. cbn in Hth. cbn in Htot. rewrite app_length in Htot. unfold k in *. lia.
      + exists x1. cbn [text_of map concat]. rewrite app_nil_r. reflexivity.
    - inversion Hok as [|? ? [Hw Hsep] Hok']; subst. inversion Hhon as [|? ? [Hty Hby] Hhon']; subst. cbn [fst snd] in Hw, Hsep, Hty, Hby.
      destruct (read_first y start w sep a true Hat Hp ltac:(congruence) Hw) as (y1 & E & Hi & Hk1 & Hp1 & Hf1 & Hpos1). rewrite E, Hk in A. cbn [item_offset] in A.
      set (head := WarcSpec.head_text (w_version w) (w_headers w)) in *. pose proof (whole_len w) as Ht. fold head in Ht. pose proof (head_some (w_version w) (w_headers w)) as Hhs. fold head in Hhs.
      assert (P1 : f_pos (s_fh y1) = start + List.length head) by (unfold pos, f_tell in Hpos1; lia).
      rewrite archive_text_cons, (app_length (wrec_text w)), (app_length sep) in Htot.
      destruct (header_of "Content-Type" w) as [ct|] eqn:Ect; [|contradiction (Hty Ect)].
      destruct A as [(A1 & A2)|(e' & A1 & <- & A2)]; destruct (x_read_record cut_ops budget x true) as [ox x1]; cbn [fst snd] in *; subst ox.
      + specialize (A2 ltac:(discriminate)). pose proof (there P X e _ _ A2) as Hth. rewrite P1 in Hth. fold k in Hth.
        pose proof (dump_cut name x1 y1 w _ out ct Hby Ect A2 Hi) as Q. cbv zeta in Q. rewrite P1 in Q.
        destruct (x_dump_item cut_ops name out x1 (None, Some (handed w), [])) as [[o2 out2] x2] eqn:Ebody. cbn [fst snd] in Q.
        destruct (Nat.leb_spec (List.length head) (k - start)) as [L0|L0]; [|lia].
        destruct (Nat.leb_spec (List.length (wrec_text w)) (k - start)) as [L|L]; destruct (Nat.leb_spec (List.length (w_body w)) (k - (start + List.length head))) as [L'|L']; try lia.
        * destruct Q as (Q1 & y' & Q2 & Q3). pose proof (f_equal fst Q1) as Qa. pose proof (f_equal snd Q1) as Qb. cbn [fst snd] in Qa, Qb. subst o2.
          destruct (used_payload _ _ _ _ Hi Q2) as (l' & _ & Pp & Pk & _).
          assert (Hat2 : at_text y' (start + List.length (wrec_text w) + List.length sep) (archive_text a)) by (apply (at_text_next y1 (w_body w) _ sep); [exact Hi|exact Q2|exact Hsep|lia]).
          destruct (IH fuel x2 y' _ out2 Hok' Hhon' ltac:(cbn in Hf; lia) Q3 Hb Hat2 ltac:(lia) ltac:(congruence) ltac:(congruence)) as (x3 & Q4).
          exists x3. etransitivity; [exact Q4|]. rewrite Qb. replace (k - (start + List.length (wrec_text w) + List.length sep)) with (k - start - List.length (wrec_text w) - List.length sep) by lia.
          apply (f_equal (fun z => (Raise e, z, x3))). rewrite <- app_assoc, <- text_of_app. cbn [app]. rewrite <- app_assoc. reflexivity.
        * pose proof (f_equal fst Q) as Qa. pose proof (f_equal snd Q) as Qb. cbn [fst snd] in Qa, Qb. rewrite Qa, Qb, app_nil_r. exists x2. reflexivity.
      + specialize (A2 ltac:(discriminate)). unfold cut_lost in A2. rewrite P1 in A2. fold k in A2. exists x1.
        destruct (Nat.leb_spec (List.length head) (k - start)) as [L|L]; [lia|]. cbn [text_of map concat]. rewrite app_nil_r. reflexivity.
  Qed.
End CutDump.
(** what warcdump prints of a compressed archive that is cut off, and how it ends *)
Theorem C69_dumping_a_cut_archive : forall (a : archive) (k : nat) (e : exn) (budget : nat) (out name : bytes),
  archive_ok a -> Forall (fun p => has_type (fst p) /\ all_bytes (w_body (fst p))) a -> k < List.length (archive_text a) -> List.length (archive_text a) + 2 <= budget ->
  exists st, x_for_read_records cut_ops budget None true (x_dump_item cut_ops name) out (open_cut PWarc (firstn k (archive_text a)) e) =
    (Raise e, out ++ text_of (cut_dumped name a k), st).
Proof.
  intros a k e budget out name Hok Hh Hk Hb. destruct (cut_start a k e Hk) as (E & HX & Hl & Hat & HR).
  set (P := firstn k (archive_text a)) in *. set (X := skipn k (archive_text a)) in *. pose proof (archive_text_records a) as Hn.
  destruct (dump_loop_cut P X e HX name budget a budget _ _ 0 out Hok Hh ltac:(unfold bytes in *; lia) HR ltac:(rewrite <- E; exact Hb) Hat ltac:(rewrite <- E; reflexivity) eq_refl eq_refl) as (st & Q).
  exists st. unfold x_for_read_records. rewrite Hl, Nat.sub_0_r in Q. exact Q.
Qed.

(** ** A concrete case: two records; the second's payload, then its head, is cut *)
Definition dump_sample : archive :=
  [ (mkw (B "WARC/1.0") [(B "Content-Type", B "text/x"); (B "Content-Length", B "2")] (B "yy"), terminator);
    (mkw (B "WARC/1.0") [(B "Content-Type", B "text/y"); (B "Content-Length", B "3")] (B "zzz"), terminator) ].
Example C69_dumping_met :
  let size := List.length (archive_text dump_sample) in let lines := cut_dumped (B "x") dump_sample in
  archive_ok dump_sample /\ Forall (fun p => has_type (fst p) /\ all_bytes (w_body (fst p))) dump_sample /\
  List.length (lines (size - 1)) = 2 * List.length (lines (start_of dump_sample 1)) /\
  lines (size - 5) = lines (start_of dump_sample 1) ++ [B "archive record at x:None"; B "Headers:"; [TAB] ++ B "Content-Type:text/y"; [TAB] ++ B "Content-Length:3"] /\
  lines (start_of dump_sample 1 + 20) = lines (start_of dump_sample 1) /\ lines 10 = [].
Proof.
  cbv zeta. split; [apply archive_okb_sound; vm_compute; reflexivity|]. split.
  { constructor; [|constructor; [|constructor]]; (split; [intro H; vm_compute in H; discriminate|repeat (constructor; [reflexivity|]); constructor]). }
  vm_compute. repeat split.
Qed.
