(** C69 for warc2warc with any options: reading calls that fail, and compressed archives that are cut off *)
From Verif Require Export FaultW2w PropsCutTools.
From Coq Require Import String List Lia ZArith.
Open Scope list_scope.

(** ** Specification: what warc2warc (with -Z: [gz]; with -D: [decode]) writes of a compressed archive of which only the first [k] bytes can be decompressed:
    the records that lie in them; of the first that does not, if its head does, the head and the whole pieces of its payload, broken off there - unless it is a
    response and -D is given: then it is to be read into memory first, and nothing of it is written *)
Definition in_memory (decode : bool) (w : wrec) : bool := decode && is_some_eq (header_of "WARC-Type" w) (B "response").
Fixpoint repacked (gz : option gzipper) (decode : bool) (a : archive) (k : nat) : bytes :=
  match a with
  | [] => []
  | (w, s) :: t =>
      let head := WarcSpec.head_text (w_version w) (w_headers w) in
      if Nat.leb (List.length (wrec_text w)) k
      then in_output gz (if decode then decoded_copy w else canonical w) ++ repacked gz decode t (k - List.length (wrec_text w) - List.length s)
      else if Nat.leb (List.length head) k && negb (in_memory decode w)
      then torn_output gz (head ++ firstn (PropsCutCopy.piece * ((k - List.length head) / PropsCutCopy.piece)) (w_body w))
      else []
  end.

(** ** Lemmas *)
Lemma emit_sent gz out st r : from_archive r -> emit gz out st r = sent gz out (emit None [] st r).
Proof.
  intros (Hc & Hv & _). unfold emit, write_to. rewrite Hc, Hv. unfold has_cf. rewrite Hc. cbn [andb negb].
  destruct (rec_write CRLF r st) as [[[[u|e|] r'] st'] d]; destruct gz; reflexivity.
Qed.
Lemma emit_gz_held gz r0 c : exists o txt, forall out st, emit gz out st (with_cf (with_content r0 c) CF_none) = (o, out ++ txt, st).
Proof.
  unfold emit, write_to, rec_write, has_cf. cbn [with_cf with_content r_cf r_class andb]. destruct (r_class r0) as [v| |].
  - unfold warc_write, has_cf, rec_content. cbn [with_cf with_content r_cf r_content]. destruct c as [ct buf]. eexists _, _. intros out st. cbn [fst snd]. reflexivity.
  - eexists _, _. intros out st. reflexivity.
  - eexists _, _. intros out st. reflexivity.
Qed.
Lemma w2w_eq hg uz ug gz decode out st r : w2w_process hg uz ug gz decode out st r =
  if decode && is_some_eq (rec_type r) V_RESPONSE then
    after_step (rec_content r st) out (fun c r' st' =>
      match snd c with
      | Some content =>
          match decode_step hg uz ug (fst c) content with
          | Ret _ => emit gz out st' r'
          | Raise e => (Raise e, out, st')
          | Diverge => (Diverge, out, st')
          end
      | None => (Raise ETypeError, out, st')
      end)
  else emit gz out st r.
Proof.
  unfold w2w_process. destruct (decode && _); [|reflexivity]. unfold after_step. destruct (rec_content r st) as [[[[c1 [c2|]]|e|] r'] st']; reflexivity.
Qed.
Lemma emit_gz_later gz out st r : held r -> later st (snd (emit gz out st r)).
Proof.
  intros [H|(r0 & c & ->)].
  - rewrite (emit_sent gz out st r H). pose proof (emit_later [] st r H) as L. destruct (emit None [] st r) as [[[u|e|] d] st']; exact L.
  - destruct (emit_gz_held gz r0 c) as (o & txt & E). rewrite E. apply later_refl.
Qed.
Lemma w2w_later hg uz ug gz decode : forall out st r, from_archive r -> later st (snd (w2w_process hg uz ug gz decode out st r)).
Proof.
  intros out st r H. rewrite w2w_eq. destruct (decode && _); [|apply emit_gz_later; left; exact H].
  destruct (content_tame r st (or_introl H)) as [L Q]. destruct (rec_content r st) as [[[[c1 [c2|]]|e|] r'] st']; cbn [after_step fst snd] in *; try exact L.
  destruct (decode_step _ _ _ _ _); try exact L. eapply later_trans; [exact L|]. apply emit_gz_later. exact (Q _ eq_refl).
Qed.
Definition Any (_ _ : bytes) : Prop := True.
Section W2w.
  Context {F : Type} (ops : fops F) (budget : nat) (R : F -> file -> Prop) (fault : exn -> Prop) (lost : file -> Prop).
  Hypothesis Hh : honest ops R fault lost.
  Hypothesis Hlost : forall f f', lost f -> f_data f' = f_data f -> f_strict f' = f_strict f -> f_pos f <= f_pos f' -> lost f'.
  Notation Agl := (agl R fault lost (@eq bytes) Any).
  Lemma ag_emit_gz gz out x y r : held r -> Rst R x y -> FaultFacts.fits budget y -> Agl (x_emit_gz ops budget gz out x r) (emit gz out y r).
  Proof.
    intros Hr H Hf. unfold x_emit_gz. destruct Hr as [Hr|(r0 & c & ->)].
    - rewrite (proj2 (proj2 Hr)), (emit_sent gz out y r Hr).
      destruct (ag_emit ops budget R fault lost Hh Hlost [] [] x y r Hr eq_refl H Hf) as [(A1 & A2 & A3)|(e & s & A1 & A2 & A3 & A4 & A5)];
        destruct (x_emit ops budget [] x r) as [[ox dx] x1]; destruct (emit None [] y r) as [[oy dy] y1]; cbn [fst snd] in *.
      + subst ox dx. left. destruct oy as [u|e|]; (split; [reflexivity|]); (split; [reflexivity|]); intro C; cbn [sent fst snd] in *; apply A3; first [discriminate|intro Z; apply C; exact Z].
      + subst ox. right. eexists e, _. split; [reflexivity|]. split; [exact A2|]. split; [reflexivity|]. split; [exact I|]. destruct oy as [u|e'|]; intro C; cbn [sent fst snd] in *; apply A5; first [discriminate|intro Z; apply C; exact Z].
    - destruct (emit_gz_held gz r0 c) as (o & txt & E). assert (Hc : r_content (with_cf (with_content r0 c) CF_none) = Some c) by reflexivity. rewrite Hc, !E.
      left. split; [reflexivity|]. split; [reflexivity|]. intros _. exact H.
  Qed.
  Lemma ag_w2w hg uz ug gz decode : forall s1 s2 x y r, from_archive r -> s1 = s2 -> Rst R x y -> FaultFacts.fits budget y ->
    Agl (x_w2w_process ops budget hg uz ug gz decode s1 x r) (w2w_process hg uz ug gz decode s2 y r).
  Proof.
    intros out s2 x y r Hr <- H Hf. rewrite w2w_eq. unfold x_w2w_process. destruct (decode && _); [|apply ag_emit_gz; [left; exact Hr|exact H|exact Hf]].
    destruct (content_tame r y (or_introl Hr)) as [L Q].
    destruct (ag_content ops R fault lost Hh Hlost r x y H) as [[E S]|(e & E & He & Lo)]; destruct (x_rec_content ops r x) as [[ox rx] x1]; destruct (rec_content r y) as [[oy ry] y1]; cbn [fst snd] in *.
    - injection E as -> ->. destruct oy as [[c1 [c2|]]|e|]; cbn [after_step fst snd].
      + specialize (S ltac:(discriminate)). destruct (decode_step hg uz ug c1 c2) as [u|e|].
        * apply ag_emit_gz; [exact (Q _ eq_refl)|exact S|exact (fits_later budget _ _ L Hf)].
        * left. split; [reflexivity|]. split; [reflexivity|]. intros _. exact S.
        * left. split; [reflexivity|]. split; [reflexivity|]. intros _. exact S.
      + left. split; [reflexivity|]. split; [reflexivity|]. intros _. apply S. discriminate.
      + left. split; [reflexivity|]. split; [reflexivity|]. intros _. apply S. discriminate.
      + left. split; [reflexivity|]. split; [reflexivity|]. intro C. contradiction C. reflexivity.
    - subst ox. right. exists e, out. cbn [after_step fst snd]. split; [reflexivity|]. split; [exact He|]. split; [reflexivity|]. split; [exact I|].
      destruct oy as [[c1 [c2|]]|e'|]; cbn [after_step fst snd].
      + specialize (Lo ltac:(discriminate)). destruct (decode_step hg uz ug c1 c2) as [u|e'|]; cbn [fst snd]; try (intros _; exact Lo).
        intros _. exact (lost_later lost Hlost _ _ Lo (emit_gz_later gz out y1 ry (Q _ eq_refl))).
      + intros _. apply Lo. discriminate.
      + intros _. apply Lo. discriminate.
      + intro C. contradiction C. reflexivity.
  Qed.
End W2w.
(** warc2warc over a file some of whose calls fail: it writes what it would write without the failure and ends in the same way, or the failure's exception ends it,
    and then the part that cannot be read was needed *)
Theorem C69_repacking : forall (F : Type) (ops : fops F) (same_file : F -> file -> Prop) (failure : exn -> Prop) (unreadable : file -> Prop)
    (budget : nat) (kind : skind) (p : parser) (bad : F) (good : file) (out : bytes) http_gz unzlib ungzip (gz : option gzipper) (decode : bool),
  honest ops same_file failure unreadable ->
  (forall f f', unreadable f -> f_data f' = f_data f -> f_strict f' = f_strict f -> f_pos f <= f_pos f' -> unreadable f') ->
  same_file bad good -> file_fuel good <= budget ->
  let '(result, written, _) := x_for_records ops budget (x_w2w_process ops budget http_gz unzlib ungzip gz decode) out (x_new kind bad p) in
  let '(result0, written0, st0) := for_records (w2w_process http_gz unzlib ungzip gz decode) out (new_stream kind good p) in
  (result = result0 /\ written = written0) \/
  (exists e, result = Raise e /\ failure e /\ (result0 <> Diverge -> unreadable (s_fh st0))).
Proof.
  intros F ops R0 fault lost0 budget kind p bad good out hg uz ug gz decode Hh0 Hl0 H Hb.
  set (x := x_new kind bad p). set (y := new_stream kind good p).
  assert (Hr : List.length (StreamFacts.rest y) + 2 <= file_fuel good) by (exact (rest_len y)).
  assert (HR : Rst R0 x y) by (repeat split; exact H).
  assert (Hf : FaultFacts.fits budget y) by (unfold FaultFacts.fits; lia).
  assert (E : for_records (w2w_process hg uz ug gz decode) out y = iter_loop budget (w2w_process hg uz ug gz decode) out y).
  { unfold for_records. apply (iter_fuel _ from_archive read_from_archive (w2w_later hg uz ug gz decode)); [exact (rest_fuel y)|unfold bytes in *; lia]. }
  rewrite E. unfold x_for_records.
  pose proof (ag_iter ops budget R0 fault lost0 Hh0 Hl0 eq Any (fun _ => I) (fun _ _ _ _ _ => I) (x_w2w_process ops budget hg uz ug gz decode) (w2w_process hg uz ug gz decode) from_archive read_from_archive
     (ag_w2w ops budget R0 fault lost0 Hh0 Hl0 hg uz ug gz decode) (w2w_later hg uz ug gz decode) (fun s st it G _ => I) budget out out x y eq_refl HR Hf) as A.
  destruct (x_iter_loop ops budget budget (x_w2w_process ops budget hg uz ug gz decode) out x) as [[o h] x1].
  destruct (iter_loop budget (w2w_process hg uz ug gz decode) out y) as [[o0 h0] y1].
  destruct A as [(A1 & A2 & _)|(e & s & A1 & A2 & A3 & A4 & A6)]; cbn [fst snd] in *.
  - left. split; assumption.
  - right. exists e. repeat split; assumption.
Qed.

Section CutW2w.
  Variables (P X : bytes) (e : exn).
  Hypothesis HX : X <> [].
  Let k := List.length P.
  Notation same_cut := (cut_same P X e).
  Lemma emit_gz_cut budget gz x y w after out : Rst same_cut x y -> in_payload y (w_body w) after -> List.length (w_body w) < budget ->
    let Z := x_emit_gz cut_ops budget gz out x (handed w) in let had := k - f_pos (s_fh y) in
    if Nat.leb (List.length (w_body w)) had then fst Z = (Ret tt, out ++ in_output gz (canonical w)) /\ exists y', used y (List.length (w_body w)) y' /\ Rst same_cut (snd Z) y'
    else fst Z = (Raise e, out ++ torn_output gz (WarcSpec.head_text (w_version w) (w_headers w) ++ firstn (PropsCutCopy.piece * (had / PropsCutCopy.piece)) (w_body w))).
  Proof.
    intros HR Hi Hb. cbv zeta. unfold x_emit_gz. change (r_content (handed w)) with (@None (option bytes * option bytes)). cbv iota.
    destruct (emit_cut P X e HX budget x y w after [] HR Hi Hb) as (x' & Q). cbv zeta in Q. fold k in Q. destruct (Nat.leb (List.length (w_body w)) (k - f_pos (s_fh y))).
    - destruct Q as [Q1 Q2]. rewrite Q1. cbn [sent fst snd]. split; [destruct gz; reflexivity|]. eexists. split; [apply used_all|exact Q2].
    - rewrite Q. cbn [sent fst snd]. destruct gz; reflexivity.
  Qed.
  Lemma w2w_cut budget hg uz ug gz decode x y w after out : (decode = true -> untouched hg w) -> Rst same_cut x y -> in_payload y (w_body w) after -> List.length (w_body w) < budget ->
    let Z := x_w2w_process cut_ops budget hg uz ug gz decode out x (handed w) in let had := k - f_pos (s_fh y) in
    if Nat.leb (List.length (w_body w)) had
    then fst Z = (Ret tt, out ++ in_output gz (if decode then decoded_copy w else canonical w)) /\ exists y', used y (List.length (w_body w)) y' /\ Rst same_cut (snd Z) y'
    else fst Z = (Raise e, out ++ if in_memory decode w then [] else torn_output gz (WarcSpec.head_text (w_version w) (w_headers w) ++ firstn (PropsCutCopy.piece * (had / PropsCutCopy.piece)) (w_body w))).
  Proof.
    intros Hu HR Hi Hb. cbv zeta. unfold x_w2w_process. rewrite rec_type_handed.
    unfold in_memory. change (B "response") with V_RESPONSE. change (header_of "WARC-Type" w) with (first_header (B "WARC-Type") (w_headers w)).
    pose proof (emit_gz_cut budget gz x y w after out HR Hi Hb) as QE. cbv zeta in QE.
    destruct decode; cbn [andb]; [|exact QE]. unfold decoded_copy. change (B "response") with V_RESPONSE.
    destruct (is_some_eq (first_header (B "WARC-Type") (w_headers w)) V_RESPONSE) eqn:Et; [|exact QE].
    apply is_some_eq_iff in Et. destruct (content_cut P X e HX x y w after HR Hi) as (x' & r' & H1 & H2 & H3 & H4 & Q). fold k in Q. destruct (Nat.leb (List.length (w_body w)) (k - f_pos (s_fh y))).
    - destruct Q as [Q1 Q2]. rewrite Q1. cbn [after_step fst snd]. rewrite (decode_untouched hg uz ug w Et (Hu eq_refl)).
      unfold x_emit_gz. rewrite H4, (emit_memory gz out nowhere r' _ _ _ _ H1 H2 H3 H4). cbn [fst snd]. split; [reflexivity|]. eexists. split; [apply used_all|exact Q2].
    - destruct (x_rec_content cut_ops (handed w) x) as [[o r2] x2]. cbn [fst snd] in Q. destruct Q as [-> _]. cbn [after_step fst]. rewrite app_nil_r. reflexivity.
  Qed.
  Lemma w2w_loop_cut budget hg uz ug gz decode a : forall fuel x y start out, archive_ok a -> (decode = true -> Forall (fun p => untouched hg (fst p)) a) -> List.length a < fuel -> Rst same_cut x y ->
    List.length (P ++ X) + 2 <= budget ->
    at_text y start (archive_text a) -> start + List.length (archive_text a) = List.length (P ++ X) -> s_parser y = PWarc -> s_kind y = SGzipRecord ->
    exists x', x_iter_loop cut_ops budget fuel (x_w2w_process cut_ops budget hg uz ug gz decode) out x = (Raise e, out ++ repacked gz decode a (k - start), x').
  Proof.
    pose proof (X_some X HX) as X1. induction a as [|[w sep] a IH]; intros fuel x y start out Hok Hun Hf HR Hb Hat Htot Hp Hk; (destruct fuel as [|fuel]; [cbn in Hf; lia|]); cbn [x_iter_loop repacked];
      pose proof (ag_record cut_ops budget same_cut (eq e) (cut_lost P) (cut_honest P X e HX) (later_cut P) x y false HR (cut_fits P X e budget x y HR Hb)) as A.
    - destruct (at_text_fresh _ _ _ Hat) as (st0 & Heq & He & Hr & Hpos & Hk0 & Hp0 & Hf0). rewrite Heq, (read_end st0 false He) in A; [|congruence|congruence|exact Hr].
      destruct A as [(A1 & A2)|(e' & A1 & <- & A2)]; destruct (x_read_record cut_ops budget x false) as [ox x1]; cbn [fst snd] in *; subst ox.
      + exfalso. specialize (A2 ltac:(discriminate)). pose proof (there P X e _ _ A2) as Hth. assert (Q : f_pos (s_fh st0) = start) by exact Hpos. cbn in Hth. cbn in Htot. rewrite app_length in Htot. unfold k in *. lia.
      + exists x1. rewrite app_nil_r. reflexivity.
    - inversion Hok as [|? ? [Hw Hsep] Hok']; subst. cbn [fst snd] in Hw, Hsep.
      assert (Hun1 : decode = true -> untouched hg w) by (intro D; specialize (Hun D); inversion Hun; subst; assumption).
      assert (Hun2 : decode = true -> Forall (fun p => untouched hg (fst p)) a) by (intro D; specialize (Hun D); inversion Hun; subst; assumption).
      destruct (read_first y start w sep a false Hat Hp ltac:(congruence) Hw) as (y1 & E & Hi & Hk1 & Hp1 & Hf1 & Hpos1). rewrite E in A.
      set (head := WarcSpec.head_text (w_version w) (w_headers w)) in *. pose proof (whole_len w) as Ht. fold head in Ht.
      assert (P1 : f_pos (s_fh y1) = start + List.length head) by (unfold pos, f_tell in Hpos1; lia).
      pose proof (head_some (w_version w) (w_headers w)) as Hh. fold head in Hh.
      rewrite archive_text_cons, (app_length (wrec_text w)), (app_length sep) in Htot.
      destruct A as [(A1 & A2)|(e' & A1 & <- & A2)]; destruct (x_read_record cut_ops budget x false) as [ox x1]; cbn [fst snd] in *; subst ox.
      + specialize (A2 ltac:(discriminate)). pose proof (there P X e _ _ A2) as Hth. rewrite P1 in Hth. fold k in Hth.
        assert (Hl : List.length (w_body w) < budget).
        { pose proof (cut_fits P X e budget x1 y1 A2 Hb) as Q. unfold FaultFacts.fits in Q. destruct Hi as [_ Hr]. rewrite Hr, app_length in Q. lia. }
        pose proof (w2w_cut budget hg uz ug gz decode x1 y1 w _ out Hun1 A2 Hi Hl) as Q. cbv zeta in Q. rewrite P1 in Q. fold head in Q.
        replace (k - (start + List.length head)) with (k - start - List.length head) in Q by lia.
        destruct (x_w2w_process cut_ops budget hg uz ug gz decode out x1 (handed w)) as [[o2 out2] x2]. cbn [fst snd] in Q.
        destruct (Nat.leb_spec (List.length (w_body w)) (k - start - List.length head)) as [L|L].
        * destruct (Nat.leb_spec (List.length (wrec_text w)) (k - start)) as [L'|L']; [|lia]. destruct Q as (Q1 & y' & Q2 & Q3). pose proof (f_equal fst Q1) as Qa. pose proof (f_equal snd Q1) as Qb. cbn [fst snd] in Qa, Qb. subst o2.
          destruct (used_payload _ _ _ _ Hi Q2) as (l' & _ & Pp & Pk & _).
          assert (Hat2 : at_text y' (start + List.length (wrec_text w) + List.length sep) (archive_text a)) by (apply (at_text_next y1 (w_body w) _ sep); [exact Hi|exact Q2|exact Hsep|lia]).
          destruct (IH fuel x2 y' _ out2 Hok' Hun2 ltac:(cbn in Hf; lia) Q3 Hb Hat2 ltac:(lia) ltac:(congruence) ltac:(congruence)) as (x3 & Q4).
          exists x3. etransitivity; [exact Q4|]. replace (k - (start + List.length (wrec_text w) + List.length sep)) with (k - start - List.length (wrec_text w) - List.length sep) by lia.
          rewrite Qb, <- app_assoc. reflexivity.
        * destruct (Nat.leb_spec (List.length (wrec_text w)) (k - start)) as [L'|L']; [lia|]. destruct (Nat.leb_spec (List.length head) (k - start)) as [L2|L2]; [|lia].
          pose proof (f_equal fst Q) as Qa. pose proof (f_equal snd Q) as Qb. cbn [fst snd] in Qa, Qb. rewrite Qa, Qb. exists x2. destruct (in_memory decode w); reflexivity.
      + specialize (A2 ltac:(discriminate)). unfold cut_lost in A2. rewrite P1 in A2. fold k in A2. exists x1.
        destruct (Nat.leb_spec (List.length (wrec_text w)) (k - start)) as [L'|L']; [lia|]. destruct (Nat.leb_spec (List.length head) (k - start)) as [L2|L2]; [lia|]. cbn [andb]. rewrite app_nil_r. reflexivity.
  Qed.
End CutW2w.
(** what warc2warc writes of a compressed archive that is cut off, and how it ends *)
Theorem C69_repacking_a_cut_archive : forall (a : archive) (k : nat) (e : exn) (budget : nat) (out : bytes) http_gz unzlib ungzip (gz : option gzipper) (decode : bool),
  archive_ok a -> (decode = true -> Forall (fun p => untouched http_gz (fst p)) a) -> k < List.length (archive_text a) -> List.length (archive_text a) + 2 <= budget ->
  exists st, x_for_records cut_ops budget (x_w2w_process cut_ops budget http_gz unzlib ungzip gz decode) out (open_cut PWarc (firstn k (archive_text a)) e) =
    (Raise e, out ++ repacked gz decode a k, st).
Proof.
  intros a k e budget out hg uz ug gz decode Hok Hun Hk Hb. destruct (cut_start a k e Hk) as (E & HX & Hl & Hat & HR).
  set (P := firstn k (archive_text a)) in *. set (X := skipn k (archive_text a)) in *. pose proof (archive_text_records a) as Hn.
  destruct (w2w_loop_cut P X e HX budget hg uz ug gz decode a budget _ _ 0 out Hok Hun ltac:(unfold bytes in *; lia) HR ltac:(rewrite <- E; exact Hb) Hat ltac:(rewrite <- E; reflexivity) eq_refl eq_refl) as (st & Q).
  exists st. unfold x_for_records. rewrite Hl, Nat.sub_0_r in Q. exact Q.
Qed.

(** ** A concrete case: the first record, a response, is cut after more than 8192 bytes of its payload; the second, a request, in its head *)
Example C69_repacking_met :
  let cut := 77 + 8200 in let g := mkgz (fun d => B "[" ++ d ++ B "]") (fun d => B "(" ++ d) in
  archive_ok tools_sample /\ Forall (fun p => untouched (fun _ => Raise EOSError) (fst p)) tools_sample /\ Nat.ltb cut (List.length (archive_text tools_sample)) = true /\
  map (in_memory true) (map fst tools_sample) = [true; false; true] /\
  repacked None true tools_sample cut = [] /\ List.length (repacked None false tools_sample cut) = 77 + PropsCutCopy.piece /\
  List.length (repacked (Some g) false tools_sample cut) = 78 + PropsCutCopy.piece /\
  repacked (Some g) false tools_sample (start_of tools_sample 1 + 20) = B "[" ++ canonical (fst (nth 0 tools_sample (mkw [] [] [], []))) ++ B "]".
Proof.
  cbv zeta. split; [apply archive_okb_sound; vm_compute; reflexivity|]. split.
  { constructor; [|constructor; [|constructor; [|constructor]]].
    - right. left. split; intro H; vm_compute in H; discriminate.
    - left. intro H. vm_compute in H. discriminate.
    - right. left. split; intro H; vm_compute in H; discriminate. }
  repeat (split; [vm_compute; reflexivity|]). vm_compute. reflexivity.
Qed.
(** The three descriptions agree: warc2warc without options, and warcfilter with an option that reads no content and selects everything, write of a cut archive
    what copying record by record writes *)
Theorem C69_repacking_plainly_is_copying : forall (a : archive) (k : nat), repacked None false a k = copied a k.
Proof.
  induction a as [|[w s] a IH]; intro k; cbn [repacked copied]; [reflexivity|]. rewrite IH. cbn [in_memory andb negb]. rewrite andb_true_r. reflexivity.
Qed.
Theorem C69_filtering_everything_is_copying : forall (a : archive) (k : nat) (opt : fopt), opt <> FAny -> opt <> FContentType -> filtered opt (fun _ => true) a k = copied a k.
Proof.
  intros a k opt H1 H2. revert k. induction a as [|[w s] a IH]; intro k; cbn [filtered copied]; [reflexivity|]. rewrite IH.
  assert (E : as_written opt w = canonical w) by (destruct opt; try contradiction; reflexivity). assert (S : streams opt w = true) by (destruct opt; try contradiction; reflexivity).
  rewrite E, S. reflexivity.
Qed.
(** The file warc2warc (without -Z) leaves when it stops at the cut: a valid archive, or one that ends in a torn record and that warcvalid rejects - under -D never a
    torn response *)
Definition in_copy (decode : bool) (w : wrec) : wrec := if in_memory decode w then from_memory w else w.
Lemma repacked_shape decode a : archive_ok a -> forall k, k < List.length (archive_text a) ->
  let first := firstn (whole_records a k) (map fst a) in
  repacked None decode a k = concat (map canonical (map (in_copy decode) first)) \/
  exists w have, nth_error (map fst a) (whole_records a k) = Some w /\ in_memory decode w = false /\ wrec_ok w /\ have < List.length (w_body w) /\
    repacked None decode a k = concat (map canonical (map (in_copy decode) first)) ++ WarcSpec.head_text (w_version w) (w_headers w) ++ firstn have (w_body w).
Proof.
  induction a as [|[w s] a IH]; intros Hok k Hk; cbn [whole_records repacked map firstn fst nth_error]; [left; reflexivity|]. inversion Hok as [|? ? [Hw Hsep] Hok']; subst. cbn [fst snd] in *.
  rewrite archive_text_cons, (app_length (wrec_text w)), (app_length s) in Hk. destruct (Nat.leb_spec (List.length (wrec_text w)) k) as [L|L].
  - cbn [firstn map concat nth_error]. set (k' := k - List.length (wrec_text w) - List.length s) in *.
    assert (Ec : in_output None (if decode then decoded_copy w else canonical w) = canonical (in_copy decode w)).
    { cbn [in_output]. unfold in_copy, in_memory. destruct decode; [|reflexivity]. unfold decoded_copy. cbn [andb]. change (header_of "WARC-Type" w) with (first_header (B "WARC-Type") (w_headers w)). reflexivity. }
    rewrite Ec. destruct (Nat.le_gt_cases (List.length (archive_text a)) k') as [Z|Z].
    + destruct a as [|[w2 s2] a]; [cbn [repacked whole_records map firstn concat nth_error]; left; rewrite app_nil_r; reflexivity|].
      assert (N0 : 0 < List.length (archive_text ((w2, s2) :: a))) by (rewrite archive_text_cons, app_length; pose proof (wrec_text_nonempty w2); lia). unfold k' in Z. lia.
    + destruct (IH Hok' _ Z) as [E|(w2 & have & E1 & E2 & E3 & E4 & E5)].
      * left. rewrite E. reflexivity.
      * right. exists w2, have. repeat (split; [assumption|]). rewrite E5, app_assoc. reflexivity.
  - cbn [firstn map concat nth_error]. set (head := WarcSpec.head_text (w_version w) (w_headers w)) in *. destruct (Nat.leb_spec (List.length head) k) as [L2|L2]; [|left; reflexivity].
    destruct (in_memory decode w) eqn:Em; [left; reflexivity|right]. cbn [andb negb torn_output].
    match goal with |- context [firstn ?h (w_body w)] => exists w, h end. split; [reflexivity|]. split; [exact Em|]. split; [exact Hw|]. split; [|symmetry; exact (app_nil_l (head ++ _))].
    pose proof piece_pos as Pp. pose proof (Nat.mul_div_le (k - List.length head) PropsCutCopy.piece ltac:(lia)) as M. assert (W : List.length (wrec_text w) = List.length head + List.length (w_body w)) by (unfold wrec_text; apply app_length).
    apply (Nat.le_lt_trans _ _ _ M). clear - L L2 W. lia.
Qed.
Theorem C69_the_repacked_left : forall (a : archive) (k : nat) (e : exn) (budget : nat) (i : input) http_gz unzlib ungzip (decode : bool) result out st gunzip,
  archive_ok a -> (decode = true -> Forall (fun p => untouched http_gz (fst p)) a) -> k < List.length (archive_text a) -> List.length (archive_text a) + 2 <= budget ->
  x_for_records cut_ops budget (x_w2w_process cut_ops budget http_gz unzlib ungzip None decode) [] (open_cut PWarc (firstn k (archive_text a)) e) = (result, out, st) -> saved i out ->
  let whole := concat (map canonical (map (in_copy decode) (firstn (whole_records a k) (map fst a)))) in
  (out = whole /\ warcvalid gunzip [i] = Ret 0%Z) \/
  (exists w have, nth_error (map fst a) (whole_records a k) = Some w /\ ~ (decode = true /\ is_response w) /\ have < List.length (w_body w) /\
     out = whole ++ WarcSpec.head_text (w_version w) (w_headers w) ++ firstn have (w_body w) /\ warcvalid gunzip [i] = Ret (-1)%Z).
Proof.
  intros a k e budget i hg uz ug decode result out st gunzip Hok Hun Hk Hb E Hs. cbv zeta. destruct (C69_repacking_a_cut_archive a k e budget [] hg uz ug None decode Hok Hun Hk Hb) as (st' & E').
  rewrite E' in E. pose proof (f_equal (fun z => snd (fst z)) E) as Eo. cbn [fst snd app] in Eo. clear E E'. set (first := firstn (whole_records a k) (map fst a)).
  assert (Hf : Forall wrec_ok first).
  { apply Forall_forall. intros w Hin. assert (Hin' : In w (map fst a)). { rewrite <- (firstn_skipn (whole_records a k) (map fst a)). apply in_or_app. left. exact Hin. }
    apply in_map_iff in Hin' as ([w0 s0] & <- & Hin'). unfold archive_ok in Hok. rewrite Forall_forall in Hok. exact (proj1 (Hok _ Hin')). }
  assert (Hc : Forall wrec_ok (map (in_copy decode) first)).
  { apply Forall_forall. intros w Hin. apply in_map_iff in Hin as (w0 & <- & Hin). rewrite Forall_forall in Hf. unfold in_copy. destruct (in_memory decode w0); [apply from_memory_ok|]; exact (Hf _ Hin). }
  rewrite <- Eo in Hs. rewrite <- Eo. destruct (repacked_shape decode a Hok k Hk) as [Q|(w & have & Q1 & Q2 & Q4 & Q5 & Q6)].
  - left. split; [exact Q|]. rewrite Q in Hs. apply (C48_intact_archives_accepted gunzip [i] [map (fun w => (w, terminator)) (map (in_copy decode) first)]). constructor; [exact (saved_holds gunzip i _ Hc Hs)|constructor].
  - right. exists w, have. split; [exact Q1|]. split.
    { intros [D R]. unfold in_memory in Q2. rewrite D in Q2. cbn [andb] in Q2. apply is_some_eq_iff in R. change (header_of "WARC-Type" w) with (first_header (B "WARC-Type") (w_headers w)) in Q2. congruence. }
    split; [exact Q5|]. split; [exact Q6|]. rewrite Q6 in Hs.
    apply (C48_truncated_payload_rejected gunzip [] [] i (map (fun w => (w, terminator)) (map (in_copy decode) first)) w have); [constructor|apply canonical_ok, Hc|exact Q4|exact Q5|].
    left. apply torn_plain; assumption.
Qed.
