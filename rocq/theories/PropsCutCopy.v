(** C69, exactly: what is copied from a compressed archive that is cut off *)
From Verif Require Export PropsFaults PropsFilter PropsPipes ToolExamples.
From Coq Require Import String List Lia ZArith.
Open Scope list_scope.

(** ** Specification *)
(** records are copied in pieces of 8192 bytes of payload *)
Definition piece : nat := Z.to_nat CHUNK_SIZE.
(** what can be copied of the archive [a] when only its first [k] bytes are there: the records that lie in them, then of the first that does not its head
    and the whole pieces of its payload, if these are there *)
Fixpoint copied (a : archive) (k : nat) : bytes :=
  match a with
  | [] => []
  | (w, s) :: t =>
      let head := WarcSpec.head_text (w_version w) (w_headers w) in
      if Nat.leb (List.length (wrec_text w)) k then canonical w ++ copied t (k - List.length (wrec_text w) - List.length s)
      else if Nat.leb (List.length head) k then head ++ firstn (piece * ((k - List.length head) / piece)) (w_body w)
      else []
  end.

(** ** Lemmas *)
Lemma piece_eq : Z.of_nat piece = CHUNK_SIZE. Proof. unfold piece. rewrite Z2Nat.id; [reflexivity|]. unfold CHUNK_SIZE. lia. Qed.
Lemma piece_pos : 0 < piece. Proof. apply Nat2Z.inj_lt. rewrite piece_eq. unfold CHUNK_SIZE. lia. Qed.
Lemma pieces_step (d left : bytes) h : List.length d = piece -> piece <= h -> firstn (piece * (h / piece)) (d ++ left) = d ++ firstn (piece * ((h - piece) / piece)) left.
Proof.
  intros Hd Hh. pose proof piece_pos. assert (Hdiv : h / piece = S ((h - piece) / piece)). { replace h with ((h - piece) + 1 * piece) at 1 by lia. rewrite Nat.div_add by lia. lia. }
  rewrite Hdiv, Nat.mul_succ_r, (Nat.add_comm _ piece). rewrite <- Hd at 1. apply firstn_app_2.
Qed.
Section CutCopy.
  Variables (P X : bytes) (e : exn).
  Hypothesis HX : X <> [].
  Let k := List.length P.
  Notation same_cut := (cut_same P X e).
  Lemma cut_later (f f' : file) : cut_lost P f -> f_data f' = f_data f -> f_strict f' = f_strict f -> f_pos f <= f_pos f' -> cut_lost P f'.
  Proof. unfold cut_lost. intros; lia. Qed.
  Lemma there x y : Rst same_cut x y -> f_pos (s_fh y) <= k.
  Proof. intros (_ & _ & _ & H). apply H. Qed.
  Lemma copy_of_cut : forall fuel x y left after out, Rst same_cut x y -> in_payload y left after -> List.length left < fuel ->
    exists x', let had := k - f_pos (s_fh y) in
    if Nat.leb (List.length left) had then x_copy_loop cut_ops fuel x out = (Ret tt, out ++ left, x') /\ Rst same_cut x' (moved y (List.length left) 0)
    else x_copy_loop cut_ops fuel x out = (Raise e, out ++ firstn (piece * (had / piece)) left, x').
  Proof.
    pose proof piece_pos as Pp. induction fuel as [|fuel IH]; intros x y left after out HR Hi Hf; [lia|]. cbv zeta. cbn [x_copy_loop]. pose proof (there _ _ HR) as Hth.
    assert (Hn : cop_nonneg (OpRead (Some CHUNK_SIZE))) by (cbn; unfold CHUNK_SIZE; lia).
    pose proof (run_cop_ok y left after _ Hi Hn) as E. cbn [run_cop cop_result] in E. fold piece in E.
    pose proof (ag_read cut_ops same_cut (eq e) (cut_lost P) (cut_honest P X e HX) cut_later x y (Some CHUNK_SIZE) HR) as A.
    rewrite E in A. set (d := firstn piece left) in *.
    assert (Hd : List.length d = Nat.min piece (List.length left)) by (unfold d; apply firstn_length).
    destruct A as [(A1 & A2)|(e' & A1 & <- & A2)]; destruct (x_read cut_ops x (Some CHUNK_SIZE)) as [ox x1]; cbn [fst snd] in *; subst ox.
    - specialize (A2 ltac:(discriminate)). assert (Hth2 : f_pos (s_fh y) + List.length d <= k) by exact (there _ _ A2).
      destruct left as [|c l].
      + replace d with (@nil byte) by (unfold d; rewrite firstn_nil; reflexivity). cbn [List.length Nat.leb]. rewrite app_nil_r. exists x1. split; [reflexivity|].
        cbn [List.length] in *. exact A2.
      + destruct (cop_result_prefix (OpRead (Some CHUNK_SIZE)) (c :: l)) as [l' El]. pose proof (run_cop_keeps _ _ _ _ _ Hi Hn El) as Hk. cbn [run_cop] in Hk. rewrite E in Hk. cbn [snd] in Hk.
        cbn [cop_result] in El. fold piece in El. fold d in El.
        assert (Hlen : List.length (c :: l) = List.length d + List.length l') by (rewrite El at 1; apply app_length).
        assert (Hsmall : List.length (c :: l) <= piece -> d = c :: l) by (intro Q; unfold d; apply firstn_all2; exact Q).
        clearbody d. destruct d as [|a b]; [cbn [List.length] in *; lia|].
        destruct (IH x1 _ l' after (out ++ a :: b) A2 Hk ltac:(cbn [List.length] in *; lia)) as (x' & Q). cbv zeta in Q.
        exists x'. cbn [f_pos s_fh moved set_eoc adv set_fh f_advance] in Q.
        destruct (Nat.leb_spec (List.length l') (k - (f_pos (s_fh y) + List.length (a :: b)))) as [L|L]; destruct (Nat.leb_spec (List.length (c :: l)) (k - f_pos (s_fh y))) as [L'|L']; try lia.
        * destruct Q as [Q1 Q2]. split; [etransitivity; [exact Q1|]; rewrite <- app_assoc, <- El; reflexivity|].
          replace (moved y (List.length (c :: l)) 0) with (moved (moved y (List.length (a :: b)) (Z.of_nat (List.length (c :: l)) - Z.of_nat (List.length (a :: b)))) (List.length l') 0); [exact Q2|].
          unfold moved, set_eoc, adv, set_fh. cbn. rewrite f_advance_advance. do 2 f_equal. cbn [List.length] in *. lia.
        * etransitivity; [exact Q|]. rewrite <- app_assoc. assert (Hbig : List.length (a :: b) = piece).
          { destruct (Nat.le_gt_cases (List.length (c :: l)) piece) as [Q1|Q1]; [|lia]. specialize (Hsmall Q1). rewrite Hsmall in *. lia. }
          rewrite El. apply (f_equal (fun z => (Raise e, out ++ z, x'))). symmetry. etransitivity; [apply (pieces_step (a :: b) l' (k - f_pos (s_fh y))); [exact Hbig|apply Nat.le_add_le_sub_l; exact (eq_ind _ (fun n => f_pos (s_fh y) + n <= k) Hth2 _ Hbig)]|]. rewrite Hbig, Nat.sub_add_distr. reflexivity.
    - specialize (A2 ltac:(discriminate)). assert (A3 : k < f_pos (s_fh y) + List.length d) by exact A2. clear A2. clearbody d.
      exists x1. destruct (Nat.leb_spec (List.length left) (k - f_pos (s_fh y))) as [L|L]; [lia|].
      rewrite Nat.div_small by lia. rewrite Nat.mul_0_r. cbn [firstn]. rewrite app_nil_r. reflexivity.
  Qed.
  Lemma fits_cut budget x y : Rst same_cut x y -> List.length (P ++ X) + 2 <= budget -> FaultFacts.fits budget y.
  Proof.
    intros (_ & _ & _ & (_ & H & _)) Hb. unfold FaultFacts.fits, StreamFacts.rest, f_rest. rewrite H, skipn_length. lia.
  Qed.
  Lemma loop_of_cut budget a : forall fuel x y start out, archive_ok a -> List.length a < fuel -> Rst same_cut x y -> List.length (P ++ X) + 2 <= budget ->
    at_text y start (archive_text a) -> start + List.length (archive_text a) = List.length (P ++ X) -> s_parser y = PWarc -> s_kind y = SGzipRecord ->
    exists x', x_iter_loop cut_ops budget fuel (x_emit cut_ops budget) out x = (Raise e, out ++ copied a (k - start), x').
  Proof.
    pose proof (X_some X HX) as X1. induction a as [|[w sep] a IH]; intros fuel x y start out Hok Hf HR Hb Hat Htot Hp Hk; (destruct fuel as [|fuel]; [cbn in Hf; lia|]); cbn [x_iter_loop copied];
      pose proof (ag_record cut_ops budget same_cut (eq e) (cut_lost P) (cut_honest P X e HX) cut_later x y false HR (fits_cut budget x y HR Hb)) as A.
    - destruct (at_text_fresh _ _ _ Hat) as (st0 & Heq & He & Hr & Hpos & Hk0 & Hp0 & Hf0). rewrite Heq, (read_end st0 false He) in A; [|congruence|congruence|exact Hr].
      destruct A as [(A1 & A2)|(e' & A1 & <- & A2)]; destruct (x_read_record cut_ops budget x false) as [ox x1]; cbn [fst snd] in *; subst ox.
      + exfalso. specialize (A2 ltac:(discriminate)). pose proof (there _ _ A2) as Hth. assert (Q : f_pos (s_fh st0) = start) by exact Hpos. cbn in Hth. cbn in Htot. rewrite app_length in Htot. unfold k in *. lia.
      + exists x1. rewrite app_nil_r. reflexivity.
    - inversion Hok as [|? ? [Hw Hsep] Hok']; subst. cbn [fst snd] in Hw, Hsep.
      destruct (read_first y start w sep a false Hat Hp ltac:(congruence) Hw) as (y1 & E & Hi & Hk1 & Hp1 & Hf1 & Hpos1). rewrite E in A.
      set (head := WarcSpec.head_text (w_version w) (w_headers w)) in *. assert (Ht : List.length (wrec_text w) = List.length head + List.length (w_body w)) by (unfold wrec_text; apply app_length).
      assert (P1 : f_pos (s_fh y1) = start + List.length head) by (unfold pos, f_tell in Hpos1; lia).
      assert (Hh : 0 < List.length head) by (unfold head, WarcSpec.head_text; rewrite !app_length; unfold CRLF; cbn [List.length]; lia).
      destruct A as [(A1 & A2)|(e' & A1 & <- & A2)]; destruct (x_read_record cut_ops budget x false) as [ox x1]; cbn [fst snd] in *; subst ox.
      + specialize (A2 ltac:(discriminate)). pose proof (there _ _ A2) as Hth. rewrite P1 in Hth. unfold x_emit at 1. cbn [WarcArchive.handed parsed_rec r_class r_headers].
        match goal with |- context [x_copy_loop cut_ops budget x1 (out ++ ?h)] => assert (Hhd : h = head) by (rewrite write_headers_all; unfold head, WarcSpec.head_text; reflexivity) end. rewrite Hhd.
        assert (Hl : List.length (w_body w) < budget).
        { pose proof (fits_cut budget x1 y1 A2 Hb) as Q. unfold FaultFacts.fits in Q. destruct Hi as [_ Hr]. rewrite Hr, app_length in Q. lia. }
        destruct (copy_of_cut budget x1 y1 (w_body w) _ (out ++ head) A2 Hi Hl) as (x2 & Q). cbv zeta in Q. rewrite P1 in Q.
        replace (k - (start + List.length head)) with (k - start - List.length head) in Q by lia.
        destruct (Nat.leb_spec (List.length (w_body w)) (k - start - List.length head)) as [L|L].
        * destruct Q as [Q1 Q2]. destruct (Nat.leb_spec (List.length (wrec_text w)) (k - start)) as [L'|L']; [|lia]. rewrite Q1.
          assert (Hat2 : at_text (moved y1 (List.length (w_body w)) 0) (start + List.length (wrec_text w) + List.length sep) (archive_text a)).
          { apply (at_text_next y1 (w_body w) _ sep); [exact Hi|apply used_all|exact Hsep|lia]. }
          rewrite archive_text_cons, (app_length (wrec_text w)), (app_length sep) in Htot.
          destruct (IH fuel x2 _ _ (((out ++ head) ++ w_body w) ++ CRLF ++ CRLF) Hok' ltac:(cbn in Hf; lia) Q2 Hb Hat2 ltac:(lia) Hp1 (eq_trans Hk1 Hk)) as (x3 & Q3).
          exists x3. etransitivity; [exact Q3|]. replace (k - (start + List.length (wrec_text w) + List.length sep)) with (k - start - List.length (wrec_text w) - List.length sep) by lia.
          apply (f_equal (fun z => (Raise e, z, x3))). unfold canonical, wrec_text, terminator. fold head. rewrite <- !app_assoc. reflexivity.
        * destruct (Nat.leb_spec (List.length (wrec_text w)) (k - start)) as [L'|L']; [lia|]. destruct (Nat.leb_spec (List.length head) (k - start)) as [L2|L2]; [|lia].
          rewrite Q. exists x2. apply (f_equal (fun z => (Raise e, z, x2))). rewrite <- app_assoc. reflexivity.
      + specialize (A2 ltac:(discriminate)). unfold cut_lost in A2. rewrite P1 in A2. fold k in A2. exists x1.
        destruct (Nat.leb_spec (List.length (wrec_text w)) (k - start)) as [L'|L']; [lia|]. destruct (Nat.leb_spec (List.length head) (k - start)) as [L2|L2]; [lia|]. rewrite app_nil_r. reflexivity.
  Qed.
End CutCopy.

(** ** The theorem *)
(** Of a compressed archive of well-formed records only the first [k] bytes can be decompressed, then comes the exception [e]: what warc2warc writes, and how it ends. *)
Theorem C69_copy_of_a_cut_archive : forall (a : archive) (k : nat) (e : exn) (budget : nat) (out : bytes),
  archive_ok a -> k < List.length (archive_text a) -> List.length (archive_text a) + 2 <= budget ->
  exists st, x_for_records cut_ops budget (x_emit cut_ops budget) out (open_cut PWarc (firstn k (archive_text a)) e) = (Raise e, out ++ copied a k, st).
Proof.
  intros a k e budget out Hok Hk Hb. set (P := firstn k (archive_text a)). set (X := skipn k (archive_text a)).
  assert (E : archive_text a = P ++ X) by (symmetry; apply firstn_skipn).
  assert (HX : X <> []) by (intro Z; assert (List.length X = 0) by (rewrite Z; reflexivity); unfold X in *; rewrite skipn_length in *; lia).
  assert (Hl : List.length P = k) by (unfold P; rewrite firstn_length; lia).
  set (y := new_stream SGzipRecord (mkfile (P ++ X) 0 true) PWarc).
  assert (Hat : at_text y 0 (archive_text a)).
  { left. split; [reflexivity|]. exists []. split; [rewrite E; reflexivity|]. split; [|reflexivity]. split; [intros c []|left; reflexivity]. }
  assert (HR : Rst (cut_same P X e) (open_cut PWarc P e) y) by (repeat split; cbn; lia).
  pose proof (archive_text_records a) as Hn.
  destruct (loop_of_cut P X e HX budget a budget (open_cut PWarc P e) y 0 out Hok ltac:(unfold bytes in *; lia) HR ltac:(rewrite <- E; exact Hb) Hat ltac:(rewrite <- E; reflexivity) eq_refl eq_refl) as (st & Q).
  exists st. unfold x_for_records. rewrite Hl, Nat.sub_0_r in Q. exact Q.
Qed.

(** ** What is left *)
(** the number of records of [a] that end within its first [k] bytes *)
Fixpoint whole_records (a : archive) (k : nat) : nat :=
  match a with
  | [] => 0
  | (w, s) :: t => if Nat.leb (List.length (wrec_text w)) k then S (whole_records t (k - List.length (wrec_text w) - List.length s)) else 0
  end.
Lemma copied_shape a : archive_ok a -> forall k, k < List.length (archive_text a) ->
  let first := firstn (whole_records a k) (map fst a) in
  copied a k = concat (map canonical first) \/
  exists w have, nth_error (map fst a) (whole_records a k) = Some w /\ wrec_ok w /\ have < List.length (w_body w) /\
    copied a k = concat (map canonical first) ++ WarcSpec.head_text (w_version w) (w_headers w) ++ firstn have (w_body w).
Proof.
  induction a as [|[w s] a IH]; intros Hok k Hk; cbn [whole_records copied map firstn fst nth_error]; [left; reflexivity|]. inversion Hok as [|? ? [Hw Hsep] Hok']; subst. cbn [fst snd] in *.
  rewrite archive_text_cons, (app_length (wrec_text w)), (app_length s) in Hk. destruct (Nat.leb_spec (List.length (wrec_text w)) k) as [L|L].
  - cbn [firstn map concat nth_error]. destruct (Nat.le_gt_cases (List.length (archive_text a)) (k - List.length (wrec_text w) - List.length s)) as [Z|Z].
    + destruct a as [|[w2 s2] a]; [cbn [copied whole_records map firstn concat nth_error]; left; rewrite app_nil_r; reflexivity|].
      assert (N0 : 0 < List.length (archive_text ((w2, s2) :: a))) by (rewrite archive_text_cons, app_length; pose proof (wrec_text_nonempty w2); lia). lia.
    + destruct (IH Hok' _ Z) as [E|(w2 & have & E1 & E2 & E3 & E4)].
      * left. rewrite E. reflexivity.
      * right. exists w2, have. split; [exact E1|]. split; [exact E2|]. split; [exact E3|]. rewrite E4, app_assoc. reflexivity.
  - cbn [firstn map concat nth_error]. set (head := WarcSpec.head_text (w_version w) (w_headers w)) in *. destruct (Nat.leb_spec (List.length head) k) as [L2|L2]; [right|left; reflexivity].
    match goal with |- context [firstn ?h (w_body w)] => exists w, h end. split; [reflexivity|]. split; [exact Hw|]. split; [|symmetry; exact (app_nil_l (head ++ _))].
    pose proof piece_pos as Pp. pose proof (Nat.mul_div_le (k - List.length head) piece ltac:(lia)) as M. assert (W : List.length (wrec_text w) = List.length head + List.length (w_body w)) by (unfold wrec_text; apply app_length).
    apply (Nat.le_lt_trans _ _ _ M). clear - L L2 W. lia.
Qed.
Lemma torn_plain i l w have : Forall wrec_ok l -> wrec_ok w -> saved i (concat (map canonical l) ++ WarcSpec.head_text (w_version w) (w_headers w) ++ firstn have (w_body w)) ->
  plain_file i (cut_text (map (fun w => (w, terminator)) l) w have).
Proof.
  intros Hl Hw [E Hn]. rewrite canonical_archive in E. split; [exact Hn|]. split; [|exact E]. rewrite E. intros t Ht.
  assert (V : forall v rest, In v versions -> v ++ rest <> [31; 139]%N ++ t).
  { intros v r Hv Q. unfold versions in Hv. revert Q. destruct Hv as [<-|[<-|[<-|[]]]]; cbn; discriminate. }
  destruct l as [|w0 l].
  - cbn [map archive_text concat app] in Ht. unfold WarcSpec.head_text in Ht. rewrite <- !app_assoc in Ht. exact (V _ _ (proj1 Hw) Ht).
  - inversion Hl as [|? ? Hw0 _]; subst. cbn [map] in Ht. rewrite archive_text_cons in Ht. unfold wrec_text, WarcSpec.head_text in Ht. rewrite <- !app_assoc in Ht. exact (V _ _ (proj1 Hw0) Ht).
Qed.
(** The file such a copy leaves: the whole records, and perhaps a torn one.  warcvalid rejects it if there is a torn one; if there is none - the cut was in a head or
    between two records - it is a valid archive with fewer records. *)
Theorem C69_the_copy_left : forall (a : archive) (k : nat) (e : exn) (budget : nat) (i : input) result out st gunzip,
  archive_ok a -> k < List.length (archive_text a) -> List.length (archive_text a) + 2 <= budget ->
  x_for_records cut_ops budget (x_emit cut_ops budget) [] (open_cut PWarc (firstn k (archive_text a)) e) = (result, out, st) -> saved i out ->
  let first := firstn (whole_records a k) (map fst a) in
  (out = concat (map canonical first) /\ warcvalid gunzip [i] = Ret 0%Z) \/
  (exists w have, nth_error (map fst a) (whole_records a k) = Some w /\ have < List.length (w_body w) /\
     out = concat (map canonical first) ++ WarcSpec.head_text (w_version w) (w_headers w) ++ firstn have (w_body w) /\ warcvalid gunzip [i] = Ret (-1)%Z).
Proof.
  intros a k e budget i result out st gunzip Hok Hk Hb E Hs. cbv zeta. destruct (C69_copy_of_a_cut_archive a k e budget [] Hok Hk Hb) as (st' & E').
  rewrite E' in E. injection E as <- <- <-. cbn [app] in *.
  assert (Hf : Forall wrec_ok (firstn (whole_records a k) (map fst a))).
  { apply Forall_forall. intros w Hin. assert (Hin' : In w (map fst a)). { rewrite <- (firstn_skipn (whole_records a k) (map fst a)). apply in_or_app. left. exact Hin. }
    apply in_map_iff in Hin' as ([w0 s0] & <- & Hin'). unfold archive_ok in Hok. rewrite Forall_forall in Hok. exact (proj1 (Hok _ Hin')). }
  destruct (copied_shape a Hok k Hk) as [Q|(w & have & Q1 & Q2 & Q3 & Q4)].
  - left. split; [exact Q|]. rewrite Q in Hs. apply (C48_intact_archives_accepted gunzip [i] [map (fun w => (w, terminator)) (firstn (whole_records a k) (map fst a))]). constructor; [exact (saved_holds gunzip i _ Hf Hs)|constructor].
  - right. exists w, have. split; [exact Q1|]. split; [exact Q3|]. split; [exact Q4|]. rewrite Q4 in Hs.
    apply (C48_truncated_payload_rejected gunzip [] [] i (map (fun w => (w, terminator)) (firstn (whole_records a k) (map fst a))) w have); [constructor|apply canonical_ok, Hf|exact Q2|exact Q3|].
    left. apply torn_plain; assumption.
Qed.

(** ** Concrete cases *)
(** three records cut at every place; what is copied, in one case *)
Example C69_copy_met : archive_ok PropsFaults.cut_sample /\ PropsFaults.cut_at < List.length (archive_text PropsFaults.cut_sample) /\
  copied PropsFaults.cut_sample PropsFaults.cut_at <> [] /\ copied PropsFaults.cut_sample (List.length (archive_text PropsFaults.cut_sample) - 1) <> copied PropsFaults.cut_sample PropsFaults.cut_at.
Proof. split; [apply archive_okb_sound; vm_compute; reflexivity|]. vm_compute. repeat split; try discriminate. lia. Qed.
(** a payload of 8192 + 3 bytes of which 8192 + 1 are there: one piece is copied *)
Example C69_piece_met :
  let w := mkw (B "WARC/1.0") [(B "Content-Length", B "8195")] (repeat 120%N 8195) in
  archive_ok [(w, terminator)] /\ piece = 8192 /\
  List.length (copied [(w, terminator)] (List.length (wrec_text w) - 2)) = List.length (wrec_text w) - 3.
Proof. cbv zeta. split; [apply archive_okb_sound; vm_compute; reflexivity|]. split; vm_compute; reflexivity. Qed.
(** a cut in a payload is found by warcvalid in the copy, a cut in a head is not *)
Example C69_left_met :
  let left k := mkin (B "x.warc") (copied PropsFaults.cut_sample k) in
  warcvalid plain_id [left PropsFaults.cut_at] = Ret (-1)%Z /\ warcvalid plain_id [left (start_of PropsFaults.cut_sample 1 + 5)] = Ret 0%Z /\
  whole_records PropsFaults.cut_sample (start_of PropsFaults.cut_sample 1 + 5) = 1.
Proof. vm_compute. repeat split. Qed.
