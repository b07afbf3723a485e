(** C91: a closed stream and the records kept from it *)
From Verif Require Export Closing LifeSpec.
From Verif Require Import FaultFacts PropsFaults PropsLife PropsShelf.
From Coq Require Import String List Lia ZArith.
Open Scope list_scope.

(** * Specification *)
(** A record after the stream was closed: one like any other record ([Whole]: its content is known, is gone, or
    is in a file of the caller's), or one whose content was still in the stream ([Orphan]: its class and headers,
    and whether it was written before). *)
Inductive leftover : Type := Whole (o : obj) | Orphan (c : rclass) (hs : list header) (used : bool).
Definition without (c : rclass) (hs : list header) : obj := mkobj c hs None None.
Inductive still_does : leftover -> rop -> outcome val -> bytes -> leftover -> Prop :=
| S_whole o op x w t o' : does o op x w t o' -> still_does (Whole o) op x w (Whole o')
(* the content cannot be had any more; after the attempt there is no content file *)
| S_content c hs u : still_does (Orphan c hs u) AskContent (Raise EValueError) [] (Whole (without c hs))
(* type and length: the headers still answer *)
| S_type c hs u ct : type_header (without c hs) = Some ct -> still_does (Orphan c hs u) AskType (Ret (VType (Some ct))) [] (Orphan c hs u)
| S_type_none c hs u : type_header (without c hs) = None -> still_does (Orphan c hs u) AskType (Raise EValueError) [] (Whole (without c hs))
| S_length c hs u l n : length_header (without c hs) = Some l -> py_int 10 l = Some n -> still_does (Orphan c hs u) AskLength (Ret (VLength n)) [] (Orphan c hs u)
| S_length_bad c hs u l : length_header (without c hs) = Some l -> py_int 10 l = None -> still_does (Orphan c hs u) AskLength (Raise EValueError) [] (Orphan c hs u)
| S_length_none c hs u : length_header (without c hs) = None -> still_does (Orphan c hs u) AskLength (Raise EValueError) [] (Whole (without c hs))
| S_header c hs u n : still_does (Orphan c hs u) (AskHeader n) (Ret (VHeader (first_header n hs))) [] (Orphan c hs u)
| S_set c hs u n v : still_does (Orphan c hs u) (SetHeader n v) (Ret VNone) [] (Orphan c (filter (fun h => negb (bytes_eqb (fst h) n)) hs ++ [(n, v)]) u)
| S_read c hs u n : still_does (Orphan c hs u) (ReadFile n) (Raise EValueError) [] (Orphan c hs u)
| S_assign c hs u rd : still_does (Orphan c hs u) (AssignFile (Some rd)) (Ret VNone) [] (Whole (mkobj c hs None (Some (concat rd, false))))
| S_unassign c hs u : still_does (Orphan c hs u) (AssignFile None) (Ret VNone) [] (Whole (without c hs))
(* writing: the head of the record is out before the content is missed *)
| S_used c hs gz nl : still_does (Orphan c hs true) (Write gz nl) (Raise E_used) [] (Orphan c hs true)
| S_write v hs gz nl : still_does (Orphan (RWarc v) hs false) (Write gz nl) (Raise EValueError) (torn_off gz (v ++ nl ++ lines nl hs ++ nl)) (Orphan (RWarc v) hs false)
| S_write_arc c hs gz nl : warc (without c hs) = false -> still_does (Orphan c hs false) (Write gz nl) (Ret VNone) (packed gz []) (Orphan c hs true).

(** the records and the closed stream *)
Inductive after_close : list leftover -> dop -> outcome sval * bytes -> list leftover -> Prop :=
| A_next ks : after_close ks (Do Next) (Raise EValueError, []) ks
| A_call ks i k op x w k' : nth_error ks i = Some k -> still_does k op x w k' -> after_close ks (Do (On i op)) (omap VCall x, w) (put ks i k')
| A_no_such ks i op : nth_error ks i = None -> after_close ks (Do (On i op)) (Ret VNoSuch, []) ks
| A_close ks : after_close ks CloseIt (Ret (VCall VNone), []) ks
| A_close_file ks i k : nth_error ks i = Some k -> (forall o, k = Whole o -> o_file o <> None) -> after_close ks (CloseFile i) (Ret (VCall VNone), []) ks
| A_close_none ks i o : nth_error ks i = Some (Whole o) -> o_file o = None -> after_close ks (CloseFile i) (Raise EAttributeError, []) ks
| A_close_no_such ks i : nth_error ks i = None -> after_close ks (CloseFile i) (Ret VNoSuch, []) ks.
Inductive after_closing : list leftover -> list dop -> list (outcome sval * bytes) -> list leftover -> Prop :=
| A_nil ks : after_closing ks [] [] ks
| A_cons ks op x ks1 ops xs ks2 : after_close ks op x ks1 -> after_closing ks1 ops xs ks2 -> after_closing ks (op :: ops) (x :: xs) ks2.
(** what a record is at the time of closing *)
Definition left_over (r : record) : leftover :=
  match r_cf r with
  | CF_stream => Orphan (r_class r) (r_headers r) (negb (r_valid r))
  | CF_own rd => Whole (mkobj (r_class r) (r_headers r) (r_content r) (Some (concat rd, negb (r_valid r))))
  | CF_none | CF_unset => Whole (mkobj (r_class r) (r_headers r) (r_content r) None)
  end.
(** a caller's files hand out what they have (a piece is not empty) *)
Definition files_ok (ops : list dop) : Prop := Forall (fun op => forall i rd, op = Do (On i (AssignFile (Some rd))) -> Forall (fun p => p <> []) rd) ops.

(** * The calls over a file that may raise are those of Record.v and Life.v *)
Definition opened (st : stream) : fstream file := mkfst (s_kind st) (s_fh st) (s_eoc st) (s_parser st).
Lemma plain_honest : honest plain_ops eq (fun _ => False) (fun _ => False).
Proof. constructor; intros; subst; left; split; reflexivity. Qed.
Lemma opened_R st : Rst eq (opened st) st. Proof. repeat split. Qed.
Lemma R_opened x st : Rst eq x st -> x = opened st.
Proof. destruct x as [k f e p]. intros (H1 & H2 & H3 & H4). cbn in *. subst. reflexivity. Qed.
Definition open2 {A} (x : outcome A * stream) : outcome A * fstream file := (fst x, opened (snd x)).
Lemma plain_read st n : x_read plain_ops (opened st) n = open2 (stream_read st n).
Proof.
  destruct (ag_read plain_ops eq (fun _ => False) (fun _ => False) plain_honest (fun _ _ H _ _ _ => H) (opened st) st n (opened_R st)) as [[E S]|(e & _ & [] & _)].
  unfold open2. destruct (x_read plain_ops (opened st) n) as [o x], (stream_read st n) as [o0 y] eqn:E0. cbn [fst snd] in *. subst o0. f_equal. apply R_opened, S.
  unfold stream_read, raw_read in E0. destruct (bounded st n) as [z|].
  - destruct (f_read (s_fh st) z) as [[d|e|] f'] eqn:Ef; injection E0 as <- _; try discriminate. unfold f_read in Ef. destruct (Z.ltb z 0); [|discriminate]. destruct (Z.eqb z (-1) || negb (f_strict (s_fh st))); discriminate.
  - destruct (f_read_all (s_fh st)). injection E0 as <- _. discriminate.
Qed.
Definition open3 {A C} (x : outcome A * C * stream) : outcome A * C * fstream file := (fst x, opened (snd x)).
Lemma plain_content r st : xr_content plain_ops r (opened st) = open3 (rec_content r st).
Proof.
  unfold xr_content, rec_content. destruct (r_content r); [reflexivity|]. destruct (r_cf r); try reflexivity.
  rewrite plain_read. destruct (stream_read st None) as [[d|e|] s]; reflexivity.
Qed.
Lemma plain_file c st lim : xr_file plain_ops c (opened st) lim = open3 (match lim with Some n => cf_read c st n | None => cf_read_all c st end).
Proof.
  destruct c as [| | |rd]; destruct lim as [n|]; cbn [xr_file cf_read cf_read_all option_map]; rewrite ?plain_read; try reflexivity.
  - destruct (stream_read st _) as [o s]. reflexivity.
  - destruct (stream_read st _) as [o s]. reflexivity.
  - destruct (rd_read rd n) as [d rd']. reflexivity.
Qed.
Lemma plain_copy fuel : forall c st out, xr_copy plain_ops fuel c (opened st) out =
  let '(o, c', st', out') := copy_loop fuel c st out in (o, c', opened st', out').
Proof.
  induction fuel as [|fuel IH]; intros c st out; [reflexivity|]. cbn [xr_copy copy_loop]. rewrite plain_file. cbn [open3].
  destruct (cf_read c st (Z.to_nat CHUNK_SIZE)) as [[[[|b d]|e|] c'] s]; cbn [open3 fst snd]; try reflexivity. apply IH.
Qed.
Lemma plain_copy_budget budget c st out : file_fuel (s_fh st) <= budget ->
  xr_copy plain_ops (match c with CF_own rd => S (List.length (concat rd) + List.length rd) | _ => budget end) c (opened st) out =
  let '(o, c', st', out') := copy_loop (cf_fuel c st) c st out in (o, c', opened st', out').
Proof.
  intro Hb. rewrite plain_copy. pose proof (rest_fuel st) as Q. assert (0 < file_fuel (s_fh st)) by (unfold file_fuel; lia).
  assert (E : copy_loop (match c with CF_own rd => S (List.length (concat rd) + List.length rd) | _ => budget end) c st out = copy_loop (cf_fuel c st) c st out); [|rewrite E; reflexivity].
  destruct c as [| | |rd]; cbn [cf_fuel]; try reflexivity.
  - destruct budget as [|b]; [lia|]. destruct (file_fuel (s_fh st)); [lia|]. reflexivity.
  - destruct budget as [|b]; [lia|]. destruct (file_fuel (s_fh st)); [lia|]. reflexivity.
  - apply copy_fuel; lia.
Qed.
Lemma plain_do budget r st op : file_fuel (s_fh st) <= budget ->
  xr_do plain_ops budget r (opened st) op = let '(x, w, r', st') := rec_do r st op in (x, w, r', opened st').
Proof.
  intro Hb. destruct op as [| | |n|n v|lim|f|gz nl]; cbn [xr_do rec_do].
  - rewrite plain_content. destruct (rec_content r st) as [[o r'] s]. reflexivity.
  - unfold xr_type, rec_content_type. rewrite plain_content. destruct (r_content r), (get_header r (ct_name r)); try reflexivity; destruct (rec_content r st) as [[o r'] s]; reflexivity.
  - unfold xr_length, rec_content_length. rewrite plain_content. destruct (r_content r), (get_header r (cl_name r)); try reflexivity; destruct (rec_content r st) as [[o r'] s]; reflexivity.
  - reflexivity.
  - reflexivity.
  - rewrite plain_file. destruct lim as [n|]; [destruct (cf_read (r_cf r) st n) as [[o c'] s]|destruct (cf_read_all (r_cf r) st) as [[o c'] s]]; reflexivity.
  - reflexivity.
  - assert (W : forall v, xr_warc_write plain_ops budget v nl r (opened st) = let '(o, r', st', out) := warc_write v nl r st in (o, r', opened st', out)).
    { intro v. unfold xr_warc_write, warc_write. destruct (has_cf r).
      - rewrite plain_copy_budget by exact Hb. destruct (copy_loop _ _ _ _) as [[[[u|e|] c'] s] out2]; reflexivity.
      - rewrite plain_content. destruct (rec_content r st) as [[[[ct buf]|e|] r'] s]; reflexivity. }
    unfold xr_write_to, write_to, rec_write. destruct (r_cf r) eqn:C; try reflexivity; (destruct (has_cf r && negb (r_valid r)); [reflexivity|]); destruct (r_class r); try reflexivity;
      rewrite W; destruct (warc_write _ nl r st) as [[[[u|e|] r'] s] out]; reflexivity.
Qed.
(** The calls of Closing.v over a file that does not fail: results, output, records and stream as in Shelf.v *)
Theorem C91_same_calls : forall budget s op, file_fuel (s_fh (sh_st s)) <= budget ->
  let '(x, w, (recs, st)) := xr_step plain_ops budget (sh_recs s) (opened (sh_st s)) op in
  let '(x0, w0, s0) := shelf_do s op in
  x = x0 /\ w = w0 /\ recs = sh_recs s0 /\ (x <> Diverge -> st = opened (sh_st s0)).
Proof.
  intros budget s op Hb. destruct op as [|i op]; cbn [xr_step shelf_do].
  - assert (Hf : FaultFacts.fits budget (sh_st s)) by (unfold FaultFacts.fits; pose proof (rest_len (sh_st s)) as Q; eapply Nat.le_trans; [exact Q|exact Hb]).
    destruct (ag_record plain_ops budget eq (fun _ => False) (fun _ => False) plain_honest (fun _ _ H _ _ _ => H) (opened (sh_st s)) (sh_st s) true (opened_R _) Hf) as [[E S]|(e & _ & [] & _)].
    destruct (x_read_record plain_ops budget (opened (sh_st s)) true) as [o x], (read_record (sh_st s) true) as [o0 y]. cbn [fst snd] in *. subst o0.
    split; [reflexivity|]. split; [reflexivity|]. split; [reflexivity|]. intro D. apply R_opened, S. intro X. subst o. apply D. reflexivity.
  - destruct (nth_error (sh_recs s) i) as [r|]; [|auto]. rewrite plain_do by exact Hb. destruct (rec_do r (sh_st s) op) as [[[x w] r'] st']. auto.
Qed.

(** * Records whose content is not in the stream *)
Lemma other_content {F} (ops : fops F) r st st0 : r_cf r <> CF_stream -> exists x r', xr_content ops r st = (x, r', st) /\ rec_content r st0 = (x, r', st0).
Proof. intro H. unfold xr_content, rec_content. destruct (r_content r); [eauto|]. destruct (r_cf r); try contradiction; eauto. Qed.
Lemma other_file {F} (ops : fops F) c st st0 lim : c <> CF_stream -> exists x c', xr_file ops c st lim = (x, c', st) /\ (match lim with Some n => cf_read c st0 n | None => cf_read_all c st0 end) = (x, c', st0) /\ c' <> CF_stream.
Proof.
  intro H. destruct c as [| | |rd]; destruct lim as [n|]; cbn [xr_file cf_read cf_read_all]; try contradiction; try (eexists _, _; split; [reflexivity|]; split; [reflexivity|discriminate]).
  destruct (rd_read rd n) as [d rd']. eexists _, _. split; [reflexivity|]. split; [reflexivity|discriminate].
Qed.
Lemma other_copy {F} (ops : fops F) fuel : forall c st st0 out, c <> CF_stream -> exists x c' out', xr_copy ops fuel c st out = (x, c', st, out') /\ copy_loop fuel c st0 out = (x, c', st0, out').
Proof.
  induction fuel as [|fuel IH]; intros c st st0 out H; cbn [xr_copy copy_loop]; [eauto|].
  destruct (other_file ops c st st0 (Some (Z.to_nat CHUNK_SIZE)) H) as (x & c' & E1 & E2 & N). rewrite E1. rewrite E2. destruct x as [[|b d]|e|]; eauto.
Qed.
Lemma other_do {F} (ops : fops F) budget r st st0 op : 0 < budget -> r_cf r <> CF_stream -> exists x w r', xr_do ops budget r st op = (x, w, r', st) /\ rec_do r st0 op = (x, w, r', st0).
Proof.
  intros Hb H. destruct (other_content ops r st st0 H) as (xc & rc & E1 & E2). destruct op as [| | |n|n v|lim|f|gz nl]; cbn [xr_do rec_do].
  - rewrite E1, E2. eauto.
  - unfold xr_type, rec_content_type. rewrite E1, E2. destruct (r_content r), (get_header r (ct_name r)); eauto.
  - unfold xr_length, rec_content_length. rewrite E1, E2. destruct (r_content r), (get_header r (cl_name r)); eauto.
  - eauto.
  - eauto.
  - destruct (other_file ops (r_cf r) st st0 lim H) as (x & c' & F1 & F2 & _). rewrite F1. rewrite F2. eauto.
  - eauto.
  - assert (W : forall v, exists x r' out, xr_warc_write ops budget v nl r st = (x, r', st, out) /\ warc_write v nl r st0 = (x, r', st0, out)).
    { intro v. unfold xr_warc_write, warc_write. destruct (has_cf r) eqn:C.
      - unfold has_cf in C. destruct (r_cf r) as [| | |rd] eqn:Cf; try discriminate; try contradiction. cbn [cf_fuel].
        match goal with |- context [xr_copy ops ?f ?c st ?o] => destruct (other_copy ops f c st st0 o H) as (x & c' & out & F1 & F2) end. rewrite F1. rewrite F2. destruct x; eauto.
      - rewrite E1, E2. destruct xc as [[ct buf]|e|]; eauto. }
    unfold xr_write_to, write_to, rec_write. destruct (r_cf r) eqn:C; try contradiction; [eauto| |]; (destruct (has_cf r && negb (r_valid r)); [eauto|]); (destruct (r_class r); [|eauto|eauto]);
      match goal with |- context [xr_warc_write ops budget ?v] => destruct (W v) as (x & r' & out & F1 & F2) end; rewrite F1; rewrite F2; destruct x; eauto.
Qed.

(** * Records whose content is in the stream *)
Lemma orphan_do r st op : r_cf r = CF_stream -> r_content r = None ->
  exists x w r', xr_do shut_ops 1 r st op = (x, w, r', st) /\ still_does (left_over r) op x w (left_over r') /\ x <> Diverge.
Proof.
  intros C K. assert (L : left_over r = Orphan (r_class r) (r_headers r) (negb (r_valid r))) by (unfold left_over; rewrite C; reflexivity). rewrite L.
  assert (Sh : forall n, x_read shut_ops st n = (Raise EValueError, st)).
  { intro n. destruct st as [k [] e p]. unfold x_read, x_raw_read. destruct (x_bounded _ n); reflexivity. }
  assert (Gone : forall x w, left_over (with_cf r CF_none) = x -> w = x -> w = left_over (with_cf r CF_none)) by (intros; subst; reflexivity). clear Gone.
  assert (G : left_over (with_cf r CF_none) = Whole (without (r_class r) (r_headers r))) by (unfold left_over, without; cbn; rewrite K; reflexivity).
  assert (T : get_header r (ct_name r) = type_header (without (r_class r) (r_headers r))).
  { unfold get_header, type_header, ct_name, is_warc, warc. rewrite lookup_first. cbn. destruct (r_class r); reflexivity. }
  assert (Ln : get_header r (cl_name r) = length_header (without (r_class r) (r_headers r))).
  { unfold get_header, length_header, cl_name, is_warc, warc. rewrite lookup_first. cbn. destruct (r_class r); reflexivity. }
  assert (Ct : xr_content shut_ops r st = (Raise EValueError, with_cf r CF_none, st)) by (unfold xr_content; rewrite K, C, Sh; reflexivity).
  destruct op as [| | |n|n v|lim|f|gz nl]; cbn [xr_do].
  - rewrite Ct. eexists _, _, _. split; [reflexivity|]. rewrite G. split; [apply S_content|discriminate].
  - unfold xr_type. rewrite K, Ct, T. destruct (type_header _) as [ct|] eqn:E; eexists _, _, _; (split; [reflexivity|]); rewrite ?L, ?G; (split; [constructor; exact E|discriminate]).
  - unfold xr_length. rewrite K, Ct, Ln. destruct (length_header _) as [l|] eqn:E; [destruct (py_int 10 l) as [z|] eqn:P|]; eexists _, _, _; (split; [reflexivity|]); rewrite ?L, ?G;
      (split; [econstructor; eassumption|discriminate]).
  - eexists _, _, _. split; [reflexivity|]. rewrite L. split; [|discriminate]. unfold get_header. rewrite lookup_first. apply S_header.
  - eexists _, _, _. split; [reflexivity|]. split; [|discriminate]. unfold left_over. cbn [set_header r_cf r_class r_headers r_valid with_headers]. rewrite C. apply S_set.
  - rewrite C. cbn [xr_file]. rewrite Sh. eexists _, _, _. split; [reflexivity|]. split; [|discriminate]. apply S_read.
  - eexists _, _, _. split; [reflexivity|]. split; [|discriminate]. destruct f as [rd|]; unfold left_over; cbn [with_cf r_cf r_class r_headers r_content r_valid]; rewrite K; [apply S_assign|apply S_unassign].
  - assert (Hc : has_cf r = true) by (unfold has_cf; rewrite C; reflexivity). unfold xr_write_to. rewrite C, Hc. destruct (r_valid r) eqn:V; cbn [negb andb].
    + destruct (r_class r) as [v| |] eqn:Cl.
      * unfold xr_warc_write. rewrite Hc, C. cbn [xr_copy xr_file option_map]. rewrite Sh. cbn [with_valid with_cf]. eexists _, _, _. split; [reflexivity|]. split; [|discriminate].
        assert (E : left_over (with_valid (with_cf r CF_stream) (r_valid r)) = Orphan (RWarc v) (r_headers r) false) by (unfold left_over; cbn; rewrite Cl, V; reflexivity).
        rewrite keeps_all. rewrite <- app_assoc. rewrite <- app_assoc. rewrite E. apply S_write.
      * rewrite Hc. eexists _, _, _. split; [reflexivity|]. split; [|discriminate].
        assert (E : left_over (with_valid r false) = Orphan (r_class r) (r_headers r) true) by (unfold left_over; cbn; rewrite C; reflexivity). rewrite E, Cl. apply S_write_arc. reflexivity.
      * rewrite Hc. eexists _, _, _. split; [reflexivity|]. split; [|discriminate].
        assert (E : left_over (with_valid r false) = Orphan (r_class r) (r_headers r) true) by (unfold left_over; cbn; rewrite C; reflexivity). rewrite E, Cl. apply S_write_arc. reflexivity.
    + eexists _, _, _. split; [reflexivity|]. split; [|discriminate]. rewrite L. try rewrite V. apply S_used.
Qed.

(** * The invariant *)
Definition sound (r : record) : Prop :=
  r_cf r <> CF_unset /\ (r_cf r = CF_stream -> r_content r = None) /\ (forall rd, r_cf r = CF_own rd -> full rd).
Definition nostream : stream := new_stream SPlain (mkfile [] 0 false) PWarc.
Lemma sound_shows r : sound r -> r_cf r <> CF_stream -> exists o, left_over r = Whole o /\ shows (here [] nostream) r nostream o.
Proof.
  intros (H1 & H2 & H3) H. unfold left_over, shows. destruct (r_cf r) as [| | |rd] eqn:C; try contradiction.
  - eexists. split; [reflexivity|]. cbn. auto.
  - eexists. split; [reflexivity|]. cbn. rewrite negb_involutive. repeat split; auto. left. exists rd. auto.
Qed.
Lemma shows_sound r o : shows (here [] nostream) r nostream o -> r_cf r <> CF_stream -> sound r /\ left_over r = Whole o.
Proof.
  intros (H1 & H2 & H3 & H4) H. unfold sound, left_over. destruct o as [c hs kn [[d u]|]]; cbn in *.
  - destruct H4 as [V [(rd & C & Fu & L)|[C _]]]; [|contradiction]. rewrite C. split.
    + split; [discriminate|]. split; [discriminate|]. intros rd' E. injection E as <-. exact Fu.
    + rewrite H1, H2, H3, L, V, negb_involutive. reflexivity.
  - rewrite H4. split; [|rewrite H1, H2, H3; reflexivity]. split; [discriminate|]. split; discriminate.
Qed.
Lemma other_ok r op : sound r -> r_cf r <> CF_stream -> (forall rd, op = AssignFile (Some rd) -> full rd) ->
  exists x w r' t o o', (forall F (ops : fops F) st, xr_do ops 1 r st op = (x, w, r', st)) /\ (forall st, rec_do r st op = (x, w, r', st)) /\ left_over r = Whole o /\ left_over r' = Whole o' /\ does o op x w t o' /\ sound r' /\ r_cf r' <> CF_stream /\ x <> Diverge.
Proof.
  intros Hs H Hf. destruct (sound_shows r Hs H) as (o & L & S). destruct (here_do [] nostream r nostream o op S Hf) as (x & w & r' & st' & t & o' & E & D & S' & Kp & N).
  destruct (other_do shut_ops 1 r (x_new SPlain tt PWarc) nostream op (Nat.lt_0_succ 0) H) as (x1 & w1 & r1 & _ & E1). rewrite E in E1. injection E1 as -> -> -> ->.
  assert (H' : r_cf r1 <> CF_stream) by (intro X; apply H; exact (proj2 Kp X)).
  destruct (shows_sound r1 o' S' H') as [Sn L']. exists x1, w1, r1, t, o, o'. repeat split; try assumption; try apply Sn.
  - intros F ops st. destruct (other_do ops 1 r st nostream op (Nat.lt_0_succ 0) H) as (x2 & w2 & r2 & E2 & E3). rewrite E in E3. injection E3 as -> -> ->. exact E2.
  - intros st. destruct (other_do shut_ops 1 r (x_new SPlain tt PWarc) st op (Nat.lt_0_succ 0) H) as (x2 & w2 & r2 & E2 & E3).
    destruct (other_do shut_ops 1 r (x_new SPlain tt PWarc) nostream op (Nat.lt_0_succ 0) H) as (x3 & w3 & r3 & E4 & E5). rewrite E in E5. injection E5 as -> -> ->. rewrite E4 in E2. injection E2 as -> -> ->. exact E3.
Qed.
(** ** The open stream *)
Definition quiet (op : rop) : Prop := match op with AskHeader _ | SetHeader _ _ | ReadFile _ | Write _ _ => True | _ => False end.
Lemma stream_do r st op x w r' st' : r_cf r = CF_stream -> r_content r = None -> (forall rd, op = AssignFile (Some rd) -> full rd) -> rec_do r st op = (x, w, r', st') ->
  sound r' /\ (quiet op -> r_cf r' = CF_stream) /\ r_class r' = r_class r /\ (r_headers r' = match op with SetHeader n v => r_headers (set_header r n v) | _ => r_headers r end) /\
  (match op with Write _ _ | AssignFile _ => True | _ => r_cf r' = CF_stream -> r_valid r' = r_valid r end).
Proof.
  intros C K Hf E. assert (S0 : sound r) by (split; [congruence|]; split; [auto|]; intros rd X; congruence).
  assert (Sn : forall r0, r_cf r0 = CF_none -> sound r0) by (intros r0 X; split; [congruence|]; split; congruence).
  assert (Ss : forall r0, r_cf r0 = CF_stream -> r_content r0 = None -> sound r0) by (intros r0 X Y; split; [congruence|]; split; [auto|congruence]).
  assert (Cc : forall o r0 s, rec_content r st = (o, r0, s) -> r_cf r0 = CF_none /\ r_class r0 = r_class r /\ r_headers r0 = r_headers r).
  { intros o r0 s. unfold rec_content. rewrite K, C. destruct (stream_read st None) as [[d|e|] s1]; intro X; injection X as _ <- _; auto. }
  destruct op as [| | |n|n v|lim|f|gz nl]; cbn [rec_do] in E.
  - destruct (rec_content r st) as [[o r0] s]. injection E as _ _ <- _. destruct (Cc _ _ _ eq_refl) as (Q & Q2 & Q3). repeat split; auto; try congruence; try (intro X; contradiction X); apply Sn; exact Q.
  - unfold rec_content_type in E. rewrite K in E. destruct (get_header r (ct_name r)); [injection E as _ _ <- _; auto 6 using Ss; repeat split; auto; intros []|].
    destruct (rec_content r st) as [[o r0] s]. injection E as _ _ <- _. destruct (Cc _ _ _ eq_refl) as (Q & Q2 & Q3). repeat split; auto; try congruence; try (intro X; contradiction X); apply Sn; exact Q.
  - unfold rec_content_length in E. rewrite K in E. destruct (get_header r (cl_name r)); [injection E as _ _ <- _; auto 6 using Ss; repeat split; auto; intros []|].
    destruct (rec_content r st) as [[o r0] s]. injection E as _ _ <- _. destruct (Cc _ _ _ eq_refl) as (Q & Q2 & Q3). repeat split; auto; try congruence; try (intro X; contradiction X); apply Sn; exact Q.
  - injection E as _ _ <- _. auto 8.
  - injection E as _ _ <- _. split; [apply Ss; [exact C|exact K]|]. auto 8.
  - rewrite C in E. assert (Y : r' = with_valid (with_cf r CF_stream) (r_valid r)).
    { destruct lim; cbn [cf_read cf_read_all] in E; destruct (stream_read st _) as [o s]; injection E as _ _ <- _; reflexivity. }
    subst r'. split; [apply Ss; [reflexivity|exact K]|]. auto 8.
  - injection E as _ _ <- _. split; [|split; [intros []|auto]]. destruct f as [rd|].
    + split; [discriminate|]. split; [discriminate|]. intros rd' X. injection X as <-. exact (Hf rd eq_refl).
    + apply Sn. reflexivity.
  - assert (Hc : has_cf r = true) by (unfold has_cf; rewrite C; reflexivity). unfold write_to in E. rewrite C, Hc in E. destruct (negb (r_valid r)); cbn [andb] in E; [injection E as _ _ <- _; auto 8|].
    assert (W : forall y s out v, rec_write nl r st = (y, v, s, out) -> r_cf v = CF_stream /\ r_content v = None /\ r_class v = r_class r /\ r_headers v = r_headers r).
    { intros y s out v. unfold rec_write. destruct (r_class r) as [ver| |] eqn:Cl; [|intro X; injection X as _ <- _ _; auto ..]. unfold warc_write. rewrite Hc, C.
      match goal with |- context [copy_loop ?f ?c ?s ?q] => pose proof (copy_loop_stream f s q) as Q; destruct (copy_loop f c s q) as [[[[u|e|] c'] s1] o1] end; cbn [fst snd] in Q; subst c';
        intro X; injection X as _ <- _ _; cbn; auto. }
    destruct (rec_write nl r st) as [[[y v] s] out]. destruct (W _ _ _ _ eq_refl) as (W1 & W2 & W3 & W4). assert (Hv : has_cf v = true) by (unfold has_cf; rewrite W1; reflexivity).
    destruct y; rewrite ?Hv in E; injection E as _ _ <- _; (split; [apply Ss; [exact W1|exact W2]|]); auto 8.
Qed.
Lemma open_sound r st op x w r' st' : sound r -> (forall rd, op = AssignFile (Some rd) -> full rd) -> rec_do r st op = (x, w, r', st') -> sound r'.
Proof.
  intros Hs Hf E. assert (D : r_cf r = CF_stream \/ r_cf r <> CF_stream) by (destruct (r_cf r); [right; discriminate| |left; reflexivity|]; right; discriminate). destruct D as [C|C].
  - eapply stream_do; try eassumption. apply Hs. exact C.
  - destruct (other_ok r op Hs C Hf) as (x0 & w0 & r0 & t & o & o' & _ & R & _ & _ & _ & Q & _). rewrite (R st) in E. injection E as _ _ <- _. exact Q.
Qed.
(** ** Histories *)
Lemma map_put {A C} (f : A -> C) l i x : map f (put l i x) = put (map f l) i (f x).
Proof. revert i. induction l as [|y t IH]; intros [|i]; cbn [put map]; try reflexivity. f_equal. apply IH. Qed.
Lemma Forall_put {A} (P : A -> Prop) l i x : Forall P l -> P x -> Forall P (put l i x).
Proof. intros H Hx. revert i. induction H as [|y t Hy Ht IH]; intros [|i]; cbn [put]; constructor; auto. Qed.
Lemma nth_put {A} (l : list A) i x y : nth_error l i = Some y -> nth_error (put l i x) i = Some x.
Proof. revert i. induction l as [|z t IH]; intros [|i] H; cbn in *; try discriminate; [reflexivity|exact (IH i H)]. Qed.
Lemma nth_put_other {A} (l : list A) i j x : i <> j -> nth_error (put l i x) j = nth_error l j.
Proof. revert i j. induction l as [|z t IH]; intros [|i] [|j] H; cbn; try reflexivity; try contradiction. apply IH. congruence. Qed.
Lemma nth_Forall {A} (P : A -> Prop) l i x : Forall P l -> nth_error l i = Some x -> P x.
Proof. intros H E. rewrite Forall_forall in H. apply H. eapply nth_error_In. exact E. Qed.
Lemma cf_cases r : r_cf r = CF_stream \/ r_cf r <> CF_stream.
Proof. destruct (r_cf r); [right; discriminate| |left; reflexivity|]; right; discriminate. Qed.

(** a call on a sound record, the stream being closed *)
Lemma closed_do r st op : sound r -> (forall rd, op = AssignFile (Some rd) -> full rd) ->
  exists x w r', xr_do shut_ops 1 r st op = (x, w, r', st) /\ still_does (left_over r) op x w (left_over r') /\ x <> Diverge /\ sound r'.
Proof.
  intros Hs Hf. destruct (cf_cases r) as [C|C].
  - destruct (orphan_do r st op C (proj1 (proj2 Hs) C)) as (x & w & r' & E & S & N). exists x, w, r'. split; [exact E|]. split; [exact S|]. split; [exact N|].
    assert (Sn : forall r0, r_cf r0 = CF_none -> sound r0) by (intros r0 X; split; [congruence|]; split; congruence).
    assert (Ss : forall r0, r_cf r0 = CF_stream -> r_content r0 = None -> sound r0) by (intros r0 X Y; split; [congruence|]; split; [auto|congruence]).
    pose proof (proj1 (proj2 Hs) C) as K. assert (Sh : forall n, x_read shut_ops st n = (Raise EValueError, st)).
    { intro n. destruct st as [k [] e p]. unfold x_read, x_raw_read. destruct (x_bounded _ n); reflexivity. }
    assert (Ct : xr_content shut_ops r st = (Raise EValueError, with_cf r CF_none, st)) by (unfold xr_content; rewrite K, C, Sh; reflexivity).
    destruct op as [| | |n|n v|lim|f|gz nl]; cbn [xr_do] in E.
    + rewrite Ct in E. injection E as _ _ <-. apply Sn. reflexivity.
    + unfold xr_type in E. rewrite K, Ct in E. destruct (get_header r (ct_name r)); injection E as _ _ <-; [exact Hs|apply Sn; reflexivity].
    + unfold xr_length in E. rewrite K, Ct in E. destruct (get_header r (cl_name r)); injection E as _ _ <-; [exact Hs|apply Sn; reflexivity].
    + injection E as _ _ <-. exact Hs.
    + injection E as _ _ <-. apply Ss; [exact C|exact K].
    + rewrite C in E. cbn [xr_file] in E. rewrite Sh in E. injection E as _ _ <-. apply Ss; [reflexivity|exact K].
    + injection E as _ _ <-. destruct f as [rd|]; [|apply Sn; reflexivity]. split; [discriminate|]. split; [discriminate|]. intros rd' X. injection X as <-. exact (Hf rd eq_refl).
    + assert (Hc : has_cf r = true) by (unfold has_cf; rewrite C; reflexivity). unfold xr_write_to in E. rewrite C, Hc in E. destruct (negb (r_valid r)); cbn [andb] in E; [injection E as _ _ <-; exact Hs|].
      destruct (r_class r) as [v| |].
      * unfold xr_warc_write in E. rewrite Hc, C in E. cbn [xr_copy xr_file option_map] in E. rewrite Sh in E. injection E as _ _ <-. apply Ss; [reflexivity|exact K].
      * rewrite Hc in E. injection E as _ _ <-. apply Ss; [exact C|exact K].
      * rewrite Hc in E. injection E as _ _ <-. apply Ss; [exact C|exact K].
  - destruct (other_ok r op Hs C Hf) as (x & w & r' & t & o & o' & E & _ & L & L' & D & Q & _ & N). exists x, w, r'. rewrite L, L'. split; [apply E|]. split; [eapply S_whole; exact D|]. auto.
Qed.
Definition op_ok (op : dop) : Prop := forall i rd, op = Do (On i (AssignFile (Some rd))) -> full rd.
Lemma shut_next st : exists st', x_read_record shut_ops 1 st true = (Raise EValueError, st').
Proof.
  destruct st as [k [] e p]. unfold x_read_record. destruct e as [e|]; cbn [x_eoc x_skip_loop].
  - destruct (Z.ltb 0 e); eexists; reflexivity.
  - eexists. reflexivity.
Qed.
Lemma shut_step recs st op : Forall sound recs -> op_ok op -> exists x w recs' st', d_do (Shut recs st) op = (x, w, Shut recs' st') /\
  after_close (map left_over recs) op (x, w) (map left_over recs') /\ x <> Diverge /\ Forall sound recs'.
Proof.
  intros Hs Ho. destruct op as [[|i op]| |i]; cbn [d_do recs_of shut xr_step].
  - destruct (shut_next st) as [st' E]. rewrite E. eexists _, _, _, _. split; [cbn [omap bind]; rewrite app_nil_r; reflexivity|]. split; [apply A_next|]. split; [discriminate|exact Hs].
  - destruct (nth_error recs i) as [r|] eqn:N.
    + assert (Hf : forall rd, op = AssignFile (Some rd) -> full rd) by (intros rd ->; exact (Ho i rd eq_refl)).
      destruct (closed_do r st op (nth_Forall _ _ _ _ Hs N) Hf) as (x & w & r' & E & S & Nd & Q). rewrite E. eexists _, _, _, _. split; [reflexivity|]. split; [|split].
      * rewrite map_put. eapply A_call; [rewrite (map_nth_error _ _ _ N); reflexivity|exact S].
      * destruct x; [discriminate..|contradiction].
      * apply Forall_put; assumption.
    + eexists _, _, _, _. split; [reflexivity|]. split; [|split; [discriminate|exact Hs]]. apply A_no_such. apply nth_error_None in N. apply nth_error_None. rewrite map_length. exact N.
  - eexists _, _, _, _. split; [reflexivity|]. split; [apply A_close|]. split; [discriminate|exact Hs].
  - destruct (nth_error recs i) as [r|] eqn:N.
    + pose proof (map_nth_error left_over _ _ N) as N'. unfold left_over in N' at 2. pose proof (nth_Forall _ _ _ _ Hs N) as (U & _).
      destruct (r_cf r) as [| | |rd] eqn:C; [contradiction| | |]; eexists _, _, _, _; (split; [reflexivity|]); (split; [|split; [discriminate|exact Hs]]).
      * eapply A_close_none; [exact N'|reflexivity].
      * eapply A_close_file; [exact N'|discriminate].
      * eapply A_close_file; [exact N'|]. intros o X. injection X as <-. discriminate.
    + eexists _, _, _, _. split; [reflexivity|]. split; [|split; [discriminate|exact Hs]]. apply A_close_no_such. apply nth_error_None in N. apply nth_error_None. rewrite map_length. exact N.
Qed.
Lemma step_sound d op x w d' : Forall sound (recs_of d) -> op_ok op -> d_do d op = (x, w, d') -> Forall sound (recs_of d').
Proof.
  intros Hs Ho E. destruct d as [s|recs st].
  - destruct op as [[|i op]| |i]; cbn [d_do recs_of shut shelf_do] in *.
    + pose proof (read_from_archive (sh_st s) true) as Q. destruct (read_record (sh_st s) true) as [[[[o [r|]] e]|e|] st'] eqn:R; injection E as _ _ <-; cbn [recs_of sh_recs]; rewrite ?app_nil_r; try exact Hs.
      apply Forall_app. split; [exact Hs|]. constructor; [|constructor]. destruct (Q _ _ _ eq_refl) as (Q1 & Q2 & Q3). split; [congruence|]. split; [auto|congruence].
    + destruct (nth_error (sh_recs s) i) as [r|] eqn:N; [|injection E as _ _ <-; exact Hs]. destruct (rec_do r (sh_st s) op) as [[[y out] r'] st'] eqn:D. injection E as _ _ <-.
      apply Forall_put; [exact Hs|]. eapply open_sound; [exact (nth_Forall _ _ _ _ Hs N)| |exact D]. intros rd ->. exact (Ho i rd eq_refl).
    + injection E as _ _ <-. exact Hs.
    + destruct (nth_error (sh_recs s) i) as [r|]; [|injection E as _ _ <-; exact Hs]. destruct (r_cf r); injection E as _ _ <-; exact Hs.
  - destruct (shut_step recs st op Hs Ho) as (x0 & w0 & r0 & s0 & E0 & _ & _ & Q). cbn [recs_of] in Hs. rewrite E0 in E. injection E as _ _ <-. exact Q.
Qed.
Lemma run_sound ops : forall d xs d', Forall sound (recs_of d) -> files_ok ops -> d_run d ops = (xs, d') -> Forall sound (recs_of d').
Proof.
  induction ops as [|op ops IH]; intros d xs d' Hs Hf E; cbn [d_run] in E; [injection E as _ <-; exact Hs|]. inversion Hf as [|? ? H1 H2]; subst.
  destruct (d_do d op) as [[x w] d1] eqn:D. pose proof (step_sound _ _ _ _ _ Hs H1 D) as Hs'. destruct x; [| |injection E as _ <-; exact Hs'];
    (destruct (d_run d1 ops) as [ys d2] eqn:R; injection E as _ <-; exact (IH _ _ _ Hs' H2 R)).
Qed.
Lemma shut_run ops : forall recs st, Forall sound recs -> files_ok ops -> exists xs recs' st', d_run (Shut recs st) ops = (xs, Shut recs' st') /\
  after_closing (map left_over recs) ops xs (map left_over recs') /\ Forall sound recs'.
Proof.
  induction ops as [|op ops IH]; intros recs st Hs Hf; cbn [d_run].
  - eexists _, _, _. split; [reflexivity|]. split; [constructor|exact Hs].
  - inversion Hf as [|? ? H1 H2]; subst. destruct (shut_step recs st op Hs H1) as (x & w & r1 & s1 & E & A & N & Q). rewrite E.
    destruct (IH r1 s1 Q H2) as (xs & r2 & s2 & E2 & A2 & Q2). rewrite E2. exists ((x, w) :: xs), r2, s2. split; [destruct x; [reflexivity..|contradiction]|]. split; [|exact Q2]. econstructor; eassumption.
Qed.
Definition opening (st : stream) : desktop := Open (mkshelf [] st).

Definition ended (xs : list (outcome sval * bytes)) : Prop := Forall (fun x => fst x <> Diverge) xs.
Lemma run_app a : forall d xs d1 b, d_run d a = (xs, d1) -> ended xs -> d_run d (a ++ b) = (xs ++ fst (d_run d1 b), snd (d_run d1 b)).
Proof.
  induction a as [|op a IH]; intros d xs d1 b E Hn; cbn [d_run app] in *.
  - injection E as <- <-. destruct (d_run d b). reflexivity.
  - destruct (d_do d op) as [[x w] d0]. destruct x; [| |injection E as <- _; inversion Hn as [|? ? X]; contradiction X; reflexivity];
      (destruct (d_run d0 a) as [ys d2] eqn:R; injection E as <- <-; inversion Hn as [|? ? _ Hn']; subst; rewrite (IH _ _ _ b R Hn'); reflexivity).
Qed.

(** ** C91: what every call does once the stream is closed, whatever happened before *)
Theorem C91_after_closing : forall st before xs d later, d_run (opening st) before = (xs, d) -> ended xs -> files_ok before -> files_ok later ->
  exists ys d', d_run (opening st) (before ++ CloseIt :: later) = (xs ++ (Ret (VCall VNone), []) :: ys, d') /\
    after_closing (map left_over (recs_of d)) later ys (map left_over (recs_of d')).
Proof.
  intros st before xs d later E Hn Hb Hl. pose proof (run_sound before (opening st) xs d (Forall_nil _) Hb E) as Hs.
  assert (X : exists s0, shut d = Shut (recs_of d) s0) by (destruct d; eexists; reflexivity). destruct X as [s0 X].
  destruct (shut_run later (recs_of d) s0 Hs Hl) as (ys & r' & s' & E' & A & _). exists ys, (Shut r' s'). split; [|exact A].
  rewrite (run_app before _ _ _ (CloseIt :: later) E Hn). cbn [d_run d_do]. rewrite X, E'. reflexivity.
Qed.
(** closing a record's content file closes the stream, if the record's content is still in it *)
Theorem C91_closing_the_content_file : forall d i r, nth_error (recs_of d) i = Some r -> (exists u, left_over r = Orphan (r_class r) (r_headers r) u) -> d_do d (CloseFile i) = d_do d CloseIt.
Proof.
  intros d i r N [u L]. cbn [d_do]. rewrite N. unfold left_over in L. destruct (r_cf r); try discriminate. reflexivity.
Qed.

(** *** Consequences *)
Lemma closing_length ks ops xs ks' : after_closing ks ops xs ks' -> List.length xs = List.length ops.
Proof. intro H. induction H; [reflexivity|]. cbn [List.length]. f_equal. assumption. Qed.
Lemma closing_app a : forall b ks xs ks', after_closing ks (a ++ b) xs ks' -> exists xa xb ks1, xs = xa ++ xb /\ after_closing ks a xa ks1 /\ after_closing ks1 b xb ks'.
Proof.
  induction a as [|op a IH]; intros b ks xs ks' H; cbn [app] in H.
  - exists [], xs, ks. split; [reflexivity|]. split; [constructor|exact H].
  - inversion H as [|? ? x ks1 ? xs1 ? H1 H2]; subst. destruct (IH _ _ _ _ H2) as (xa & xb & k2 & -> & A & C). exists (x :: xa), xb, k2. split; [reflexivity|]. split; [econstructor; eassumption|exact C].
Qed.
Lemma closing_nth ks ops xs ks' i op : after_closing ks ops xs ks' -> nth_error ops i = Some op ->
  exists ks1 x ks2, after_closing ks (firstn i ops) (firstn i xs) ks1 /\ after_close ks1 op x ks2 /\ nth_error xs i = Some x /\ after_closing ks2 (skipn (S i) ops) (skipn (S i) xs) ks'.
Proof.
  intro H. revert i. induction H as [|ks o x ks1 ops xs ks2 H1 H2 IH]; intros [|i] N; cbn [nth_error] in N; try discriminate.
  - injection N as ->. exists ks, x, ks1. split; [constructor|]. auto.
  - destruct (IH i N) as (a & y & b & A & C & D & E). exists a, y, b. split; [cbn [firstn]; econstructor; eassumption|]. auto.
Qed.
(** no more records *)
Theorem C91_no_more_records : forall st before xs d later, d_run (opening st) before = (xs, d) -> ended xs -> files_ok before -> files_ok later ->
  exists ys d', d_run (opening st) (before ++ CloseIt :: later) = (xs ++ (Ret (VCall VNone), []) :: ys, d') /\ List.length ys = List.length later /\
    List.length (recs_of d') = List.length (recs_of d) /\ forall i, nth_error later i = Some (Do Next) -> nth_error ys i = Some (Raise EValueError, []).
Proof.
  intros st before xs d later E Hn Hb Hl. destruct (C91_after_closing st before xs d later E Hn Hb Hl) as (ys & d' & E' & A). exists ys, d'. split; [exact E'|]. split; [eapply closing_length; exact A|]. split.
  - clear - A. remember (map left_over (recs_of d)) as ks eqn:K1. remember (map left_over (recs_of d')) as ks' eqn:K2. assert (L : List.length ks' = List.length ks).
    { clear K1 K2. induction A as [|ks op x ks1 ops xs ks2 H1 H2 IH]; [reflexivity|]. rewrite IH. inversion H1; subst; try reflexivity.
      match goal with |- List.length (put ?l ?i ?y) = _ => generalize l i y end. clear. intros l. induction l as [|z t IH]; intros [|i] y; cbn [put List.length]; try reflexivity. f_equal. apply IH. }
    subst. rewrite !map_length in L. exact L.
  - intros i N. destruct (closing_nth _ _ _ _ _ _ A N) as (k1 & x & k2 & _ & S & X & _). inversion S; subst. exact X.
Qed.
(** the records handed out, in their order *)
Definition handed (xs : list (outcome sval * bytes)) : list record :=
  flat_map (fun x => match fst x with Ret (VItem (_, Some r, _)) => [r] | _ => [] end) xs.
(** the calls a history makes on the k-th record satisfy [P] *)
Definition calls_on (k : nat) (P : rop -> Prop) (ops : list dop) : Prop := Forall (fun op => forall q, op = Do (On k q) -> P q) ops.
Definition looks (q : rop) : Prop := match q with AskHeader _ | ReadFile _ => True | _ => False end.
Definition looks_or_writes (q : rop) : Prop := match q with AskHeader _ | ReadFile _ | Write _ _ => True | _ => False end.
Definition no_new_file (q : rop) : Prop := match q with AssignFile _ => False | _ => True end.

Lemma handed_app a b : handed (a ++ b) = handed a ++ handed b.
Proof. apply flat_map_app. Qed.
Lemma put_length {A} (l : list A) i x : List.length (put l i x) = List.length l.
Proof. revert i. induction l as [|z t IH]; intros [|i]; cbn [put List.length]; try reflexivity. f_equal. apply IH. Qed.
(** untouched records: as they were handed out *)
Lemma step_untouched d op x w d' k : d_do d op = (x, w, d') -> Forall sound (recs_of d) -> (forall q, op = Do (On k q) -> looks q) ->
  forall rs, List.length rs = List.length (recs_of d) ->
  (forall r, nth_error rs k = Some r -> exists r1, nth_error (recs_of d) k = Some r1 /\ r_cf r1 = CF_stream /\ r_valid r1 = true /\ r_class r1 = r_class r /\ r_headers r1 = r_headers r) ->
  let rs' := rs ++ handed [(x, w)] in List.length rs' = List.length (recs_of d') /\
  (forall r, nth_error rs' k = Some r -> exists r1, nth_error (recs_of d') k = Some r1 /\ r_cf r1 = CF_stream /\ r_valid r1 = true /\ r_class r1 = r_class r /\ r_headers r1 = r_headers r).
Proof.
  intros E Hs Hq rs Hl H. cbn zeta. destruct d as [s|recs st].
  - destruct op as [[|i op]| |i]; cbn [d_do recs_of shut shelf_do] in *.
    + pose proof (read_from_archive (sh_st s) true) as Q. destruct (read_record (sh_st s) true) as [[[[o [r|]] e]|e|] st'] eqn:R; injection E as <- <- <-; cbn [recs_of sh_recs handed flat_map fst omap bind]; rewrite ?app_nil_r; try (split; [exact Hl|exact H]).
      rewrite !app_length. split; [cbn; congruence|]. intros r0 N. destruct (Nat.lt_ge_cases k (List.length rs)) as [L|L].
      * rewrite nth_error_app1 in N by exact L. destruct (H _ N) as (r1 & N1 & X). exists r1. split; [rewrite nth_error_app1; [exact N1|congruence]|exact X].
      * rewrite nth_error_app2 in N by exact L. destruct (k - List.length rs) as [|j] eqn:J; cbn in N; [injection N as <-|destruct j; discriminate].
        destruct (Q _ _ _ eq_refl) as (Q1 & Q2 & Q3). exists r. split; [rewrite nth_error_app2 by (unfold bytes in *; lia); replace (k - List.length (sh_recs s)) with 0 by lia; reflexivity|]. auto.
    + destruct (nth_error (sh_recs s) i) as [r|] eqn:N; [|injection E as <- <- <-; cbn; rewrite app_nil_r; split; [exact Hl|exact H]]. destruct (rec_do r (sh_st s) op) as [[[y out] r'] st'] eqn:D. injection E as <- <- <-.
      assert (Hd : handed [(omap VCall y, out)] = []) by (destruct y; reflexivity). rewrite Hd, app_nil_r. cbn [recs_of sh_recs]. rewrite put_length. split; [exact Hl|]. intros r0 N0. destruct (H _ N0) as (r1 & N1 & C1 & V1 & K1 & H1).
      destruct (Nat.eq_dec i k) as [->|Nk]; [|exists r1; rewrite nth_put_other by exact Nk; auto]. rewrite N in N1. injection N1 as <-. exists r'. rewrite (nth_put _ _ _ _ N).
      specialize (Hq op eq_refl). assert (Hf : forall rd, op = AssignFile (Some rd) -> full rd) by (intros rd ->; contradiction).
      destruct (stream_do _ _ _ _ _ _ _ C1 (proj1 (proj2 (nth_Forall _ _ _ _ Hs N)) C1) Hf D) as (S1 & S2 & S3 & S4 & S5).
      destruct op; try contradiction; cbn [quiet] in S2; specialize (S2 I); repeat split; auto; try congruence; rewrite S5; auto.
    + injection E as <- <- <-. cbn. rewrite app_nil_r. split; [exact Hl|exact H].
    + destruct (nth_error (sh_recs s) i) as [r|]; [destruct (r_cf r)|]; injection E as <- <- <-; cbn; rewrite app_nil_r; split; try exact Hl; exact H.
  - destruct op as [[|i op]| |i]; cbn [d_do recs_of shut xr_step] in *.
    + destruct (shut_next st) as [st' X]. rewrite X in E. injection E as <- <- <-. cbn. rewrite !app_nil_r. split; [exact Hl|exact H].
    + destruct (nth_error recs i) as [r|] eqn:N; [|injection E as <- <- <-; cbn; rewrite app_nil_r; split; [exact Hl|exact H]]. destruct (xr_do shut_ops 1 r st op) as [[[y out] r'] st'] eqn:D. injection E as <- <- <-.
      assert (Hd : handed [(omap VCall y, out)] = []) by (destruct y; reflexivity). rewrite Hd, app_nil_r. cbn [recs_of]. rewrite put_length. split; [exact Hl|]. intros r0 N0. destruct (H _ N0) as (r1 & N1 & C1 & V1 & K1 & H1).
      destruct (Nat.eq_dec i k) as [->|Nk]; [|exists r1; rewrite nth_put_other by exact Nk; auto]. rewrite N in N1. injection N1 as <-. exists r'. rewrite (nth_put _ _ _ _ N). split; [reflexivity|].
      specialize (Hq op eq_refl). destruct op; try contradiction; cbn [xr_do] in D.
      * injection D as _ _ <- _. auto.
      * rewrite C1 in D. cbn [xr_file] in D. destruct (x_read shut_ops st _) as [o s']. injection D as _ _ <- _. cbn. auto.
    + injection E as <- <- <-. cbn. rewrite app_nil_r. split; [exact Hl|exact H].
    + destruct (nth_error recs i) as [r|]; [destruct (r_cf r)|]; injection E as <- <- <-; cbn; rewrite app_nil_r; split; try exact Hl; exact H.
Qed.
Lemma run_untouched k ops : forall d xs d' rs, d_run d ops = (xs, d') -> Forall sound (recs_of d) -> files_ok ops -> calls_on k looks ops -> List.length rs = List.length (recs_of d) ->
  (forall r, nth_error rs k = Some r -> exists r1, nth_error (recs_of d) k = Some r1 /\ r_cf r1 = CF_stream /\ r_valid r1 = true /\ r_class r1 = r_class r /\ r_headers r1 = r_headers r) ->
  forall r, nth_error (rs ++ handed xs) k = Some r -> exists r1, nth_error (recs_of d') k = Some r1 /\ r_cf r1 = CF_stream /\ r_valid r1 = true /\ r_class r1 = r_class r /\ r_headers r1 = r_headers r.
Proof.
  induction ops as [|op ops IH]; intros d xs d' rs E Hs Hf Hc Hl H; cbn [d_run] in E; [injection E as <- <-; cbn [handed flat_map]; rewrite app_nil_r; exact H|].
  inversion Hf as [|? ? F1 F2]; subst. inversion Hc as [|? ? C1 C2]; subst. destruct (d_do d op) as [[x w] d1] eqn:D.
  destruct (step_untouched _ _ _ _ _ k D Hs C1 rs Hl H) as [L' H']. pose proof (step_sound _ _ _ _ _ Hs F1 D) as Hs'.
  destruct x as [v|e|]; [| |injection E as <- <-; exact H']; (destruct (d_run d1 ops) as [ys d2] eqn:R; injection E as <- <-; intros r N; apply (IH _ _ _ _ R Hs' F2 C2 L' H');
    rewrite <- app_assoc, <- handed_app; exact N).
Qed.
(** A record of which only headers were asked for and some content was read: at the time of closing it is an orphan
    with the class and the headers it was handed out with *)
Lemma orphan_at st before xs d k r : d_run (opening st) before = (xs, d) -> files_ok before -> calls_on k looks before -> nth_error (handed xs) k = Some r ->
  nth_error (map left_over (recs_of d)) k = Some (Orphan (r_class r) (r_headers r) false).
Proof.
  intros E Hf Hc N. destruct (run_untouched k before (opening st) xs d [] E (Forall_nil _) Hf Hc eq_refl) with (r := r) as (r1 & N1 & C & V & K & H); [intros r0 X; destruct k; discriminate|exact N|].
  rewrite (map_nth_error _ _ _ N1). unfold left_over. rewrite C, V, K, H. reflexivity.
Qed.
Lemma closed_keeps k P ks ops xs ks' lo : after_closing ks ops xs ks' -> calls_on k P ops -> nth_error ks k = Some lo ->
  (forall q x w lo', P q -> still_does lo q x w lo' -> lo' = lo) -> nth_error ks' k = Some lo.
Proof.
  intros H Hc N Hk. induction H as [|ks op x ks1 ops xs ks2 H1 H2 IH]; [exact N|]. inversion Hc as [|? ? C1 C2]; subst. apply IH; [exact C2|].
  inversion H1 as [|? i ? q y w lo' Ni Sd| | | | |]; subst; try exact N. destruct (Nat.eq_dec i k) as [->|Nk].
  - rewrite (nth_put _ _ _ _ Ni). rewrite N in Ni. injection Ni as <-. f_equal. exact (Hk _ _ _ _ (C1 q eq_refl) Sd).
  - rewrite nth_put_other by exact Nk. exact N.
Qed.
Lemma warc_keeps v hs q x w lo' : looks_or_writes q -> still_does (Orphan (RWarc v) hs false) q x w lo' -> lo' = Orphan (RWarc v) hs false.
Proof. intros Hq S. inversion S; subst; try reflexivity; try contradiction. discriminate. Qed.
Lemma orphan_keeps c hs u q x w lo' : looks q -> still_does (Orphan c hs u) q x w lo' -> lo' = Orphan c hs u.
Proof. intros Hq S. inversion S; subst; try reflexivity; contradiction. Qed.

(** Content that was not asked for before closing is lost: the first request raises ValueError, every later one
    AttributeError (the record has no content file any more), until the caller gives it one *)
Theorem C91_unread_content_is_lost : forall st before xs d k r l1 l2,
  d_run (opening st) before = (xs, d) -> ended xs -> nth_error (handed xs) k = Some r -> calls_on k looks before -> calls_on k looks l1 -> calls_on k no_new_file l2 ->
  let later := l1 ++ Do (On k AskContent) :: l2 in files_ok before -> files_ok later ->
  exists y1 y2 d', d_run (opening st) (before ++ CloseIt :: later) = (xs ++ (Ret (VCall VNone), []) :: y1 ++ (Raise EValueError, []) :: y2, d') /\
    List.length y1 = List.length l1 /\ forall i, nth_error l2 i = Some (Do (On k AskContent)) -> nth_error y2 i = Some (Raise EAttributeError, []).
Proof.
  intros st before xs d k r l1 l2 E Hn N Hb H1 H2 later Hf Hl. destruct (C91_after_closing st before xs d later E Hn Hf Hl) as (ys & d' & E' & A).
  pose proof (orphan_at st before xs d k r E Hf Hb N) as No. destruct (closing_app _ _ _ _ _ A) as (y1 & yb & k1 & -> & A1 & A2). inversion A2 as [|? ? x k2 ? y2 ? S A3]; subst.
  pose proof (closed_keeps _ _ _ _ _ _ _ A1 H1 No (orphan_keeps _ _ _)) as N1. inversion S as [|? ? ? ? x0 w k' Ni Sd|? ? ? Ni| | | |]; subst; [|congruence]. rewrite N1 in Ni. injection Ni as <-. inversion Sd; subst.
  exists y1, y2, d'. split; [exact E'|]. split; [eapply closing_length; exact A1|]. intros i Hi. destruct (closing_nth _ _ _ _ _ _ A3 Hi) as (k3 & x & k4 & B1 & B2 & B3 & _).
  assert (G : forall ks ops zs ks', after_closing ks ops zs ks' -> calls_on k no_new_file ops -> (exists o, nth_error ks k = Some (Whole o) /\ o_known o = None /\ o_file o = None) -> exists o, nth_error ks' k = Some (Whole o) /\ o_known o = None /\ o_file o = None).
  { clear. intros ks ops zs ks' H. induction H as [|ks op x ks1 ops xs ks2 H1 H2 IH]; intros Hc X; [exact X|]. inversion Hc as [|? ? C1 C2]; subst. apply IH; [exact C2|]. destruct X as (o & N & K & F).
    inversion H1 as [|? i ? q y w lo' Ni Sd| | | | |]; subst; try (exists o; solve [auto]). destruct (Nat.eq_dec i k) as [->|Nk]; [|exists o; rewrite nth_put_other by exact Nk; auto].
    rewrite (nth_put _ _ _ _ Ni). rewrite N in Ni. injection Ni as <-. inversion Sd as [? ? ? ? t o' D| | | | | | | | | | | | | |]; subst. exists o'. split; [reflexivity|].
    specialize (C1 q eq_refl). inversion D; subst; try contradiction; try (match goal with X : fetches _ _ _ _ |- _ => inversion X; subst; try congruence end); try congruence; cbn; auto. }
  destruct (G _ _ _ _ B1) as (o & No1 & Ko & Fo); [|exists (without (r_class r) (r_headers r)); split; [exact (nth_put _ _ _ _ N1)|split; reflexivity]|].
  - unfold calls_on in *. rewrite <- (firstn_skipn i l2) in H2. apply Forall_app in H2. apply H2.
  - etransitivity; [exact B3|]. f_equal. inversion B2 as [|? ? ? ? x0 w k' Nj Sj|? ? ? Nj| | | |]; subst; [|congruence]. rewrite No1 in Nj. injection Nj as <-. inversion Sj as [? ? ? ? t o' D| | | | | | | | | | | | | |]; subst.
    inversion D as [? x1 t1 o1 Fe| | | | | | | | | | | | | | | | | | | |]; subst. inversion Fe; subst; congruence || reflexivity.
Qed.
(** Writing such a record leaves the beginning of a record in the output, each time it is tried *)
Theorem C91_writing_leaves_a_head : forall st before xs d k r v later,
  d_run (opening st) before = (xs, d) -> ended xs -> nth_error (handed xs) k = Some r -> r_class r = RWarc v -> calls_on k looks before -> calls_on k looks_or_writes later -> files_ok before -> files_ok later ->
  exists ys d', d_run (opening st) (before ++ CloseIt :: later) = (xs ++ (Ret (VCall VNone), []) :: ys, d') /\
    forall i gz nl, nth_error later i = Some (Do (On k (Write gz nl))) ->
      nth_error ys i = Some (Raise EValueError, torn_off gz (v ++ nl ++ concat (map (fun h => fst h ++ B ": " ++ snd h ++ nl) (r_headers r)) ++ nl)).
Proof.
  intros st before xs d k r v later E Hn N Hv Hb H1 Hf Hl. destruct (C91_after_closing st before xs d later E Hn Hf Hl) as (ys & d' & E' & A). exists ys, d'. split; [exact E'|].
  pose proof (orphan_at st before xs d k r E Hf Hb N) as No. rewrite Hv in No. intros i gz nl Hi. destruct (closing_nth _ _ _ _ _ _ A Hi) as (k1 & x & k2 & B1 & B2 & B3 & _).
  assert (H2 : calls_on k looks_or_writes (firstn i later)) by (unfold calls_on in *; rewrite <- (firstn_skipn i later) in H1; apply Forall_app in H1; apply H1).
  pose proof (closed_keeps _ _ _ _ _ _ _ B1 H2 No (warc_keeps _ _)) as N1. etransitivity; [exact B3|]. f_equal. inversion B2 as [|? ? ? ? x0 w k' Ni Sd|? ? ? Ni| | | |]; subst; [|congruence]. rewrite N1 in Ni. injection Ni as <-.
  inversion Sd; subst; [reflexivity|discriminate].
Qed.
(** its headers, its type and its length (as far as they are in the headers) can still be asked for *)
Theorem C91_headers_still_answer : forall st before xs d k r later,
  d_run (opening st) before = (xs, d) -> ended xs -> nth_error (handed xs) k = Some r -> calls_on k looks before -> calls_on k looks later -> files_ok before -> files_ok later ->
  exists ys d', d_run (opening st) (before ++ CloseIt :: later) = (xs ++ (Ret (VCall VNone), []) :: ys, d') /\
    forall i, (forall n, nth_error later i = Some (Do (On k (AskHeader n))) -> nth_error ys i = Some (Ret (VCall (VHeader (first_header n (r_headers r)))), [])) /\
              (forall n, nth_error later i = Some (Do (On k (ReadFile n))) -> nth_error ys i = Some (Raise EValueError, [])).
Proof.
  intros st before xs d k r later E Hn N Hb H1 Hf Hl. destruct (C91_after_closing st before xs d later E Hn Hf Hl) as (ys & d' & E' & A). exists ys, d'. split; [exact E'|].
  pose proof (orphan_at st before xs d k r E Hf Hb N) as No. intro i.
  assert (H2 : calls_on k looks (firstn i later)) by (unfold calls_on in *; rewrite <- (firstn_skipn i later) in H1; apply Forall_app in H1; apply H1).
  split; intros n Hi; destruct (closing_nth _ _ _ _ _ _ A Hi) as (k1 & x & k2 & B1 & B2 & B3 & _); pose proof (closed_keeps _ _ _ _ _ _ _ B1 H2 No (orphan_keeps _ _ _)) as N1;
    apply (eq_trans B3); f_equal; (inversion B2 as [|? ? ? ? x0 w k' Ni Sd|? ? ? Ni| | | |]; subst; [|congruence]); rewrite N1 in Ni; injection Ni as <-; inversion Sd; subst; reflexivity.
Qed.

(** Content that was asked for stays, whatever happens to the stream *)
Lemma does_known o op x w t o' c : does o op x w t o' -> o_known o = Some c -> o_known o' = Some c /\ (op = AskContent -> x = Ret (VContent c) /\ w = []).
Proof.
  intros D K. inversion D; subst; try (match goal with X : fetches _ _ _ _ |- _ => inversion X; subst; try congruence end); split; try discriminate; cbn; try congruence; try exact K.
  intros _. replace c0 with c by congruence. split; reflexivity.
Qed.
Lemma step_known d op x w d' k r c : d_do d op = (x, w, d') -> Forall sound (recs_of d) -> op_ok op -> nth_error (recs_of d) k = Some r -> r_content r = Some c ->
  (exists r', nth_error (recs_of d') k = Some r' /\ r_content r' = Some c) /\ (op = Do (On k AskContent) -> (x, w) = (Ret (VCall (VContent c)), [])).
Proof.
  intros E Hs Ho N K.
  assert (Hr : forall q, op = Do (On k q) -> exists x w r', (forall F (ops : fops F) st, xr_do ops 1 r st q = (x, w, r', st)) /\ (forall st, rec_do r st q = (x, w, r', st)) /\ r_content r' = Some c /\ (q = AskContent -> x = Ret (VContent c) /\ w = [])).
  { intros q ->. pose proof (nth_Forall _ _ _ _ Hs N) as Sr. assert (C : r_cf r <> CF_stream) by (intro X; pose proof (proj1 (proj2 Sr) X); congruence).
    destruct (other_ok r q Sr C) as (x0 & w0 & r' & t & o & o' & E1 & E2 & L & L' & D & Q & C' & _); [intros rd ->; exact (Ho k rd eq_refl)|]. exists x0, w0, r'. split; [exact E1|]. split; [exact E2|].
    assert (Ko : o_known o = Some c) by (unfold left_over in L; destruct (r_cf r); try discriminate; injection L as <-; exact K).
    destruct (does_known _ _ _ _ _ _ _ D Ko) as [Ko' A]. split; [|exact A]. unfold left_over in L'. destruct (r_cf r'); try discriminate; injection L' as <-; exact Ko'. }
  destruct d as [s|recs st].
  - destruct op as [[|i op]| |i]; cbn [d_do recs_of shut shelf_do] in *.
    + destruct (read_record (sh_st s) true) as [o st']. injection E as _ _ <-. split; [|discriminate]. exists r. split; [cbn; rewrite nth_error_app1; [exact N|apply nth_error_Some; congruence]|exact K].
    + destruct (Nat.eq_dec i k) as [->|Nk].
      * rewrite N in E. destruct (Hr op eq_refl) as (x0 & w0 & r' & _ & R & K' & A). rewrite (R (sh_st s)) in E. injection E as <- <- <-. split; [exists r'; split; [exact (nth_put _ _ _ _ N)|exact K']|].
        intro Q. injection Q as ->. destruct (A eq_refl) as [-> ->]. reflexivity.
      * split; [|congruence]. destruct (nth_error (sh_recs s) i) as [ri|]; [|injection E as _ _ <-; exists r; auto]. destruct (rec_do ri (sh_st s) op) as [[[y out] r'] st']. injection E as _ _ <-. exists r. split; [cbn; rewrite nth_put_other by exact Nk; exact N|exact K].
    + injection E as _ _ <-. split; [exists r; auto|discriminate].
    + split; [|discriminate]. exists r. split; [|exact K]. destruct (nth_error (sh_recs s) i) as [ri|]; [destruct (r_cf ri)|]; injection E as _ _ <-; exact N.
  - destruct op as [[|i op]| |i]; cbn [d_do recs_of shut xr_step] in *.
    + destruct (shut_next st) as [st' X]. rewrite X in E. injection E as _ _ <-. split; [|discriminate]. exists r. split; [cbn; rewrite app_nil_r; exact N|exact K].
    + destruct (Nat.eq_dec i k) as [->|Nk].
      * rewrite N in E. destruct (Hr op eq_refl) as (x0 & w0 & r' & R & _ & K' & A). rewrite (R _ shut_ops st) in E. injection E as <- <- <-. split; [exists r'; split; [exact (nth_put _ _ _ _ N)|exact K']|].
        intro Q. injection Q as ->. destruct (A eq_refl) as [-> ->]. reflexivity.
      * split; [|congruence]. destruct (nth_error recs i) as [ri|]; [|injection E as _ _ <-; exists r; auto]. destruct (xr_do shut_ops 1 ri st op) as [[[y out] r'] st']. injection E as _ _ <-. exists r. split; [cbn; rewrite nth_put_other by exact Nk; exact N|exact K].
    + injection E as _ _ <-. split; [exists r; auto|discriminate].
    + split; [|discriminate]. exists r. split; [|exact K]. destruct (nth_error recs i) as [ri|]; [destruct (r_cf ri)|]; injection E as _ _ <-; exact N.
Qed.
Lemma run_known k c ops : forall d xs d' r, d_run d ops = (xs, d') -> Forall sound (recs_of d) -> files_ok ops -> nth_error (recs_of d) k = Some r -> r_content r = Some c ->
  forall j x, nth_error ops j = Some (Do (On k AskContent)) -> nth_error xs j = Some x -> x = (Ret (VCall (VContent c)), []).
Proof.
  induction ops as [|op ops IH]; intros d xs d' r E Hs Hf N K j x Hj Hx; [destruct j; discriminate|]. cbn [d_run] in E. inversion Hf as [|? ? F1 F2]; subst. destruct (d_do d op) as [[y w] d1] eqn:D.
  destruct (step_known _ _ _ _ _ _ _ _ D Hs F1 N K) as [(r' & N' & K') A]. pose proof (step_sound _ _ _ _ _ Hs F1 D) as Hs'.
  assert (Z : exists zs d2, xs = (y, w) :: zs /\ (zs = [] \/ d_run d1 ops = (zs, d2))).
  { destruct y; [| |injection E as <- _; exists [], d1; auto]; destruct (d_run d1 ops) as [zs d2]; injection E as <- _; exists zs, d2; auto. }
  destruct Z as (zs & d2 & -> & Z). destruct j as [|j]; cbn [nth_error] in Hj, Hx.
  - injection Hj as ->. injection Hx as <-. exact (A eq_refl).
  - destruct Z as [->|Z]; [destruct j; discriminate|]. exact (IH _ _ _ _ Z Hs' F2 N' K' j x Hj Hx).
Qed.
Lemma asked r st x w r' st' c : sound r -> rec_do r st AskContent = (x, w, r', st') -> x = Ret (VContent c) -> r_content r' = Some c.
Proof.
  intros Hs E ->. cbn [rec_do] in E. unfold rec_content in E. destruct (r_content r) as [c0|] eqn:K; [injection E as -> _ <- _; exact K|].
  destruct (r_cf r); try discriminate; [destruct (stream_read st None) as [[dd|e|] s]; try discriminate|]; injection E as <- _ <- _; reflexivity.
Qed.
Theorem C91_known_content_stays : forall st ops xs d k i j c x, d_run (opening st) ops = (xs, d) -> files_ok ops ->
  nth_error ops i = Some (Do (On k AskContent)) -> nth_error xs i = Some (Ret (VCall (VContent c)), []) ->
  i < j -> nth_error ops j = Some (Do (On k AskContent)) -> nth_error xs j = Some x -> x = (Ret (VCall (VContent c)), []).
Proof.
  intros st ops xs d k i j c x E Hf Hi Xi Hij Hj Xj. pose proof (Forall_nil sound) as Hs. change (Forall sound (recs_of (opening st))) in Hs. revert xs i j E Hs Hf Hi Xi Hij Hj Xj. generalize (opening st).
  induction ops as [|op ops IH]; intros d0 xs i j E Hs Hf Hi Xi Hij Hj Xj; [destruct i; discriminate|]. cbn [d_run] in E. inversion Hf as [|? ? F1 F2]; subst. destruct (d_do d0 op) as [[y w] d1] eqn:D.
  pose proof (step_sound _ _ _ _ _ Hs F1 D) as Hs'. destruct j as [|j]; [lia|]. cbn [nth_error] in Hj, Xj.
  assert (Z : exists zs d2, xs = (y, w) :: zs /\ (zs = [] \/ d_run d1 ops = (zs, d2) /\ d2 = d)).
  { destruct y; [| |injection E as <- _; exists [], d1; auto]; destruct (d_run d1 ops) as [zs d2]; injection E as <- <-; exists zs, d2; auto. }
  destruct Z as (zs & d2 & -> & Z). cbn [nth_error] in Xj. destruct Z as [->|[Z ->]]; [destruct j; discriminate|]. destruct i as [|i]; cbn [nth_error] in Hi, Xi.
  - injection Hi as ->. injection Xi as Xy _. assert (G : exists r, nth_error (recs_of d1) k = Some r /\ r_content r = Some c).
    { clear - D Hs Xy F1. destruct d0 as [s|recs st]; cbn [d_do recs_of shelf_do xr_step] in *.
      - destruct (nth_error (sh_recs s) k) as [r|] eqn:N; [|injection D as <- _ _; discriminate]. destruct (rec_do r (sh_st s) AskContent) as [[[y0 out] r'] st'] eqn:R. injection D as <- _ <-. exists r'. split; [exact (nth_put _ _ _ _ N)|].
        eapply asked; [exact (nth_Forall _ _ _ _ Hs N)|exact R|]. destruct y0 as [v0|e|]; try discriminate. cbn [omap bind] in Xy. injection Xy as ->. reflexivity.
      - destruct (nth_error recs k) as [r|] eqn:N; [|injection D as <- _ _; discriminate]. pose proof (nth_Forall _ _ _ _ Hs N) as Sr. destruct (cf_cases r) as [C|C].
        + destruct (orphan_do r st AskContent C (proj1 (proj2 Sr) C)) as (y0 & out & r' & R & Sd & _). rewrite R in D. injection D as <- _ _. unfold left_over in Sd. rewrite C in Sd. inversion Sd; subst. discriminate.
        + destruct (other_ok r AskContent Sr C) as (y0 & out & r' & t & o & o' & R & R2 & _); [discriminate|]. rewrite (R _ shut_ops st) in D. injection D as <- _ <-. exists r'. split; [exact (nth_put _ _ _ _ N)|].
          eapply asked; [exact Sr|exact (R2 nostream)|]. destruct y0 as [v0|e|]; try discriminate. cbn [omap bind] in Xy. injection Xy as ->. reflexivity. }
    destruct G as (r & N & K). exact (run_known k c ops d1 zs d r Z Hs' F2 N K j x Hj Xj).
  - exact (IH d1 zs i j Z Hs' F2 Hi Xi ltac:(lia) Hj Xj).
Qed.

(** ** Cases *)


Definition c91_before : list dop := [Do Next; Do (On 0 AskContent); Do Next; Do (On 1 (ReadFile (Some 4)))].
Definition c91_later : list dop := [Do (On 1 (AskHeader (B "content-type"))); Do (On 1 (ReadFile None)); Do (On 1 AskContent); Do Next; Do (On 1 AskLength); Do (On 0 AskContent); Do (On 1 AskContent); CloseFile 1].
Example C91_case :
  let '(xs, d) := d_run (opening c88_stream) c91_before in
  ended xs /\ option_map r_class (nth_error (handed xs) 1) = Some (RWarc (B "WARC/1.0")) /\ calls_on 1 looks c91_before /\ files_ok c91_before /\ files_ok c91_later /\
  (exists hs, nth_error (map left_over (recs_of d)) 1 = Some (Orphan (RWarc (B "WARC/1.0")) hs false)) /\
  (exists o, nth_error (map left_over (recs_of d)) 0 = Some (Whole o) /\ o_known o = Some (Some (B "text/a"), Some (B "first"))).
Proof.
  destruct (d_run (opening c88_stream) c91_before) as [xs d] eqn:E. vm_compute in E. injection E as <- <-.
  split; [repeat constructor; discriminate|]. split; [reflexivity|]. split; [repeat constructor; intros q X; try discriminate; injection X as <-; exact I|].
  split; [repeat constructor; discriminate|]. split; [repeat constructor; discriminate|]. split; eexists; [reflexivity|]. split; reflexivity.
Qed.
Example C91_later_case : map fst (skipn 5 (fst (d_run (opening c88_stream) (c91_before ++ CloseIt :: c91_later)))) =
  [Ret (VCall (VHeader (Some (B "text/b")))); Raise EValueError; Raise EValueError; Raise EValueError; Ret (VCall (VLength 10)); c88_says "text/a" "first"; Raise EAttributeError; Raise EAttributeError].
Proof. vm_compute. reflexivity. Qed.
(** closed through the content file; the head of the second record is written twice; a file of the caller's own helps *)
Example C91_write_case : skipn 5 (fst (d_run (opening c88_stream) (c91_before ++ CloseFile 1 :: [Do (On 1 (Write None CRLF)); Do (On 1 (Write None CRLF)); Do (On 1 (AssignFile (Some [B "the second"]))); Do (On 1 (Write None CRLF))]))) =
  let head := c86_text ["WARC/1.0"; "WARC-Type: resource"; "Content-Type: text/b"; "Content-Length: 10"]%string ""%string in
  [(Raise EValueError, firstn (List.length head - 4) head); (Raise EValueError, firstn (List.length head - 4) head); (Ret (VCall VNone), []);
   (Ret (VCall VNone), c86_text ["WARC/1.0"; "WARC-Type: resource"; "Content-Type: text/b"; "Content-Length: 10"]%string "the second"%string)].
Proof. vm_compute. reflexivity. Qed.
(** ARC records: nothing is written, closed or not *)
Definition c91_arc : bytes := Eval vm_compute in B "filedesc://a 0.0.0.0 20200101000000 text/plain 17
1 0 x
URL IP-address Archive-date Content-type Archive-length
http://a/ 1.1.1.1 20200101000000 text/x 3
abc
".
Example C91_arc_case : skipn 1 (fst (d_run (opening (new_stream SPlain (mkfile c91_arc 0 false) (PArc (mkarc [] [])))) [Do Next; CloseIt; Do (On 0 (Write None CRLF)); Do (On 0 (Write None CRLF)); Do (On 0 AskType); Do (On 0 AskContent)])) =
  [(Ret (VCall VNone), []); (Ret (VCall VNone), []); (Raise E_used, []); (Ret (VCall (VType (Some (B "text/plain")))), []); (Raise EValueError, [])].
Proof. vm_compute. reflexivity. Qed.
