(** C69 for warcfilter and warcindex: reading calls that fail, and compressed archives that are cut off *)
From Verif Require Export FaultTools PropsCutCopy PropsIndex.
From Coq Require Import String List Lia ZArith.
Open Scope list_scope.

(** ** Specification: a compressed archive of which only the first [k] bytes can be decompressed *)
(** does warcfilter write a selected record piece by piece as it reads it (or only after it has read it into memory) *)
Definition streams (opt : fopt) (w : wrec) : bool :=
  match opt with FAny => false | FContentType => match header_of "Content-Type" w with Some _ => true | None => false end | _ => true end.
(** what warcfilter writes: the selected records that lie in the [k] bytes; of the first record that does not, if it is selected and its head does, the head
    and the whole pieces of its payload - unless it is to be read into memory first *)
Fixpoint filtered (opt : fopt) (wanted : wrec -> bool) (a : archive) (k : nat) : bytes :=
  match a with
  | [] => []
  | (w, s) :: t =>
      let head := WarcSpec.head_text (w_version w) (w_headers w) in
      if Nat.leb (List.length (wrec_text w)) k then (if wanted w then as_written opt w else []) ++ filtered opt wanted t (k - List.length (wrec_text w) - List.length s)
      else if wanted w && streams opt w && Nat.leb (List.length head) k then head ++ firstn (PropsCutCopy.piece * ((k - List.length head) / PropsCutCopy.piece)) (w_body w)
      else []
  end.
(** the lines of warcindex: a record is listed if its head lies in the [k] bytes - and its payload too, if type or length must be found by reading it *)
Definition index_needs (w : wrec) : nat :=
  match header_of "Content-Type" w, header_of "Content-Length" w with
  | Some _, Some _ => List.length (WarcSpec.head_text (w_version w) (w_headers w))
  | _, _ => List.length (wrec_text w)
  end.
Fixpoint indexed (name : bytes) (a : archive) (k : nat) : bytes :=
  match a with
  | [] => []
  | (w, s) :: t => if Nat.leb (index_needs w) k then index_line name (B "None") w ++ indexed name t (k - List.length (wrec_text w) - List.length s) else []
  end.

(** ** The tools over failing files do what they do over sound ones, up to the first failure *)
Lemma filter_eq hg search opt invert out st r : filter_record hg search opt invert out st r =
  let wanted o := xorb (opt_search search o) invert in
  match opt with
  | FUrl => emit_if (wanted (rec_url r)) out st r
  | FType => emit_if (wanted (rec_type r)) out st r
  | FContentType =>
      after_step (rec_content_type r st) out (fun ct r' st' =>
        if truthy ct then after_step (rec_content_type r' st') out (fun ct' r'' st'' => emit_if (wanted ct') out st'' r'')
        else emit_if invert out st' r')
  | FHttpType =>
      if is_some_eq (rec_type r) V_RESPONSE then
        after_step (rec_content_type r st) out (fun ct r' st' =>
          match ct with
          | None => (Raise EAttributeError, out, st')
          | Some ct =>
              if startswith APPLICATION_HTTP ct then
                after_step (rec_content r' st') out (fun c r'' st'' =>
                  match snd c with
                  | Some content =>
                      match http_mime hg content with
                      | Ret mime => emit_if (wanted mime) out st'' r''
                      | Raise e => (Raise e, out, st'')
                      | Diverge => (Diverge, out, st'')
                      end
                  | None => (Raise ETypeError, out, st'')
                  end)
              else (Ret tt, out, st')
          end)
      else (Ret tt, out, st)
  | FDate => emit_if (wanted (rec_date r)) out st r
  | FAny =>
      after_step (rec_content r st) out (fun c r' st' =>
        match snd c with
        | Some content => emit_if (xorb (existsb (fun kv => search (snd kv)) (r_headers r) || search content) invert) out st' r'
        | None => (Raise ETypeError, out, st')
        end)
  end.
Proof.
  destruct opt; cbn [filter_record]; try reflexivity.
  - unfold after_step. destruct (is_some_eq _ _); [|reflexivity]. destruct (rec_content_type r st) as [[[[ct|]|e|] r'] st']; try reflexivity.
    destruct (startswith _ _); [|reflexivity]. destruct (rec_content r' st') as [[[[c1 [c2|]]|e|] r''] st'']; reflexivity.
  - unfold after_step. destruct (rec_content r st) as [[[[c1 [c2|]]|e|] r''] st'']; reflexivity.
Qed.
Lemma index_eq name out st it : index_body name out st it =
  match it with
  | (off, Some r, _) =>
      after_step (rec_content_type r st) out (fun ct r1 st1 =>
        after_step (rec_content_length r1 st1) out (fun n _ st2 =>
          (Ret true, out ++ join (B " ") [name; show_offset off; or_dash (rec_type r); or_dash (rec_url r); or_dash (rec_id r); or_dash ct; dec_Z n] ++ [LF], st2)))
  | (_, None, _) => (Ret true, out, st)
  end.
Proof. destruct it as [[off [r|]] errs]; reflexivity. Qed.

(** a record just read, or one whose content is held in memory *)
Definition held (r : record) : Prop := from_archive r \/ exists r0 c, r = with_cf (with_content r0 c) CF_none.
Lemma emit_held r0 c : exists o txt, forall out st, emit None out st (with_cf (with_content r0 c) CF_none) = (o, out ++ txt, st).
Proof.
  unfold emit, write_to, rec_write, has_cf. cbn [with_cf with_content r_cf r_class andb]. destruct (r_class r0) as [v| |].
  - unfold warc_write, has_cf, rec_content. cbn [with_cf with_content r_cf r_content]. destruct c as [ct buf]. eexists _, _. intros out st. cbn [fst snd]. reflexivity.
  - eexists _, _. intros out st. reflexivity.
  - eexists _, _. intros out st. reflexivity.
Qed.
Definition tame {C} (out : bytes) (y : stream) (Y : outcome C * bytes * stream) : Prop := later y (snd Y) /\ Pre out (snd (fst Y)).
Lemma tame_trans {C} out y y1 (Y : outcome C * bytes * stream) : later y y1 -> tame out y1 Y -> tame out y Y.
Proof. intros L [H1 H2]. split; [eapply later_trans; eassumption|exact H2]. Qed.
Lemma put_tame b out y r : held r -> tame out y (emit_if b out y r).
Proof.
  intro H. unfold emit_if. destruct b; [|split; [apply later_refl|apply Pre_refl]]. destruct H as [H|(r0 & c & ->)].
  - split; [apply emit_later, H|apply emit_pre, H].
  - destruct (emit_held r0 c) as (o & txt & E). rewrite E. split; [apply later_refl|eexists; reflexivity].
Qed.
(** the content of a record *)
Definition later_with (G : record -> Prop) {A} (y : stream) (Y : outcome A * record * stream) : Prop := later y (snd Y) /\ (forall a, fst (fst Y) = Ret a -> G (snd (fst Y))).
Notation later_held := (later_with held).
Notation later_any := (later_with (fun _ => True)).
Lemma content_any r y : later_any y (rec_content r y).
Proof.
  split; [|auto]. unfold rec_content. destruct (r_content r); [apply later_refl|]. destruct (r_cf r); try apply later_refl.
  pose proof (later_cop y (OpRead None)) as L. cbn [run_cop] in L. destruct (stream_read y None) as [[d|e|] y1]; exact L.
Qed.
Lemma content_type_any r y : later_any y (rec_content_type r y).
Proof.
  split; [|auto]. pose proof (content_any r y) as [L _]. unfold rec_content_type. destruct (rec_content r y) as [[o r'] y'].
  destruct (r_content r); [exact L|]. destruct (get_header r (ct_name r)); [apply later_refl|exact L].
Qed.
Lemma content_length_any r y : later_any y (rec_content_length r y).
Proof.
  split; [|auto]. pose proof (content_any r y) as [L _]. unfold rec_content_length. destruct (rec_content r y) as [[o r'] y'].
  destruct (r_content r); [exact L|]. destruct (get_header r (cl_name r)); [apply later_refl|exact L].
Qed.
Lemma content_tame r y : held r -> later_held y (rec_content r y).
Proof.
  intros [(H1 & H2 & H3)|(r0 & c & ->)].
  - unfold rec_content. rewrite H3, H1. pose proof (later_cop y (OpRead None)) as L. cbn [run_cop] in L.
    destruct (stream_read y None) as [[d|e|] y1]; (split; [exact L|]); intros a E; try discriminate. right. eexists _, _. reflexivity.
  - split; [apply later_refl|]. intros a E. right. eexists _, _. reflexivity.
Qed.
Lemma content_type_tame r y : held r -> later_held y (rec_content_type r y).
Proof.
  intro H. assert (S : later_held y (match rec_content r y with (o, r', y') => (omap fst o, r', y') end)).
  { pose proof (content_tame r y H) as [L Q]. destruct (rec_content r y) as [[[c|e|] r'] y']; (split; [exact L|]); intros a E; try discriminate. exact (Q _ eq_refl). }
  unfold rec_content_type. destruct (r_content r); [exact S|]. destruct (get_header r (ct_name r)); [|exact S]. split; [apply later_refl|]. intros a _. exact H.
Qed.
Lemma content_length_tame r y : held r -> later_held y (rec_content_length r y).
Proof.
  intro H. assert (S : later_held y (match rec_content r y with (o, r', y') => (bind o (fun c => match snd c with Some d => Ret (Z.of_nat (List.length d)) | None => Raise ETypeError end), r', y') end)).
  { pose proof (content_tame r y H) as [L Q]. destruct (rec_content r y) as [[[c|e|] r'] y']; (split; [exact L|]); intros a E; try discriminate. exact (Q _ eq_refl). }
  unfold rec_content_length. destruct (r_content r); [exact S|]. destruct (get_header r (cl_name r)); [|exact S]. split; [apply later_refl|]. intros a _. exact H.
Qed.
Lemma step_tame (G : record -> Prop) {A C} out y (Y : outcome A * record * stream) (k : A -> record -> stream -> outcome C * bytes * stream) :
  later_with G y Y -> (forall a r y', G r -> tame out y' (k a r y')) -> tame out y (after_step Y out k).
Proof.
  intros [L Q] Hk. destruct Y as [[[a|e|] r] y']; cbn [after_step fst snd] in *; try (split; [exact L|apply Pre_refl]).
  eapply tame_trans; [exact L|]. apply Hk. exact (Q a eq_refl).
Qed.
Lemma filter_tame hg search opt invert out y r : from_archive r -> tame out y (filter_record hg search opt invert out y r).
Proof.
  intro H. assert (Hr : held r) by (left; exact H). rewrite filter_eq. cbv zeta. destruct opt; try (apply put_tame; exact Hr).
  - apply (step_tame held); [apply content_type_tame, Hr|]. intros ct r' y' Hr'. destruct (truthy ct); [|apply put_tame, Hr'].
    apply (step_tame held); [apply content_type_tame, Hr'|]. intros ct' r'' y'' Hr''. apply put_tame, Hr''.
  - destruct (is_some_eq _ _); [|split; [apply later_refl|apply Pre_refl]].
    apply (step_tame held); [apply content_type_tame, Hr|]. intros [ct|] r' y' Hr'; [|split; [apply later_refl|apply Pre_refl]].
    destruct (startswith _ _); [|split; [apply later_refl|apply Pre_refl]].
    apply (step_tame held); [apply content_tame, Hr'|]. intros [c1 [c2|]] r'' y'' Hr''; cbn [snd]; [|split; [apply later_refl|apply Pre_refl]].
    destruct (http_mime hg c2); [apply put_tame, Hr''|split; [apply later_refl|apply Pre_refl]|split; [apply later_refl|apply Pre_refl]].
  - apply (step_tame held); [apply content_tame, Hr|]. intros [c1 [c2|]] r'' y'' Hr''; cbn [snd]; [apply put_tame, Hr''|split; [apply later_refl|apply Pre_refl]].
Qed.

Section Tools.
  Context {F : Type} (ops : fops F) (budget : nat) (R : F -> file -> Prop) (fault : exn -> Prop) (lost : file -> Prop).
  Hypothesis Hh : honest ops R fault lost.
  Hypothesis Hlost : forall f f', lost f -> f_data f' = f_data f -> f_strict f' = f_strict f -> f_pos f <= f_pos f' -> lost f'.
  Notation Agl := (agl R fault lost (@eq bytes) Pre).
  Definition agr {A} (X : outcome A * record * fstream F) (Y : outcome A * record * stream) : Prop :=
    (fst X = fst Y /\ (fst (fst Y) <> Diverge -> Rst R (snd X) (snd Y))) \/
    (exists e, fst (fst X) = Raise e /\ fault e /\ (fst (fst Y) <> Diverge -> lost (s_fh (snd Y)))).
  Lemma ag_content r x y : Rst R x y -> agr (x_rec_content ops r x) (rec_content r y).
  Proof.
    intro H. unfold x_rec_content, rec_content. destruct (r_content r); [left; split; [reflexivity|intros _; exact H]|].
    destruct (r_cf r); try (left; split; [reflexivity|intros _; exact H]).
    destruct (ag_read ops R fault lost Hh Hlost x y None H) as [[E S]|(e & E & He & L)]; destruct (x_read ops x None) as [ox x1]; cbn [fst snd] in *; subst ox.
    - destruct (stream_read y None) as [[d|e|] y1]; cbn [fst snd] in *; left; (split; [reflexivity|]); intro C; cbn [fst snd] in *; try (apply S; discriminate). contradiction C. reflexivity.
    - right. exists e. split; [reflexivity|]. split; [exact He|]. destruct (stream_read y None) as [[d|e'|] y1]; cbn [fst snd] in *; try (intros _; apply L; discriminate). intro C. contradiction C. reflexivity.
  Qed.
  Lemma ag_content_type r x y : Rst R x y -> agr (x_rec_content_type ops r x) (rec_content_type r y).
  Proof.
    intros H. assert (S : agr (match x_rec_content ops r x with (o, r', x') => (omap fst o, r', x') end) (match rec_content r y with (o, r', y') => (omap fst o, r', y') end)).
    { destruct (ag_content r x y H) as [[E Q]|(e & E & He & L)]; destruct (x_rec_content ops r x) as [[ox rx] x1]; destruct (rec_content r y) as [[oy ry] y1]; cbn [fst snd] in *.
      - injection E as -> ->. left. split; [reflexivity|]. cbn [fst snd]. intro C. apply Q. intros ->. apply C. reflexivity.
      - subst ox. right. exists e. split; [reflexivity|]. split; [exact He|]. cbn [fst snd]. intro C. apply L. intros ->. apply C. reflexivity. }
    unfold x_rec_content_type, rec_content_type. destruct (r_content r); [exact S|]. destruct (get_header r (ct_name r)); [|exact S]. left. split; [reflexivity|intros _; exact H].
  Qed.
  Lemma ag_content_length r x y : Rst R x y -> agr (x_rec_content_length ops r x) (rec_content_length r y).
  Proof.
    intros H. assert (S : agr (match x_rec_content ops r x with (o, r', x') => (bind o (fun c => match snd c with Some d => Ret (Z.of_nat (List.length d)) | None => Raise ETypeError end), r', x') end)
        (match rec_content r y with (o, r', y') => (bind o (fun c => match snd c with Some d => Ret (Z.of_nat (List.length d)) | None => Raise ETypeError end), r', y') end)).
    { destruct (ag_content r x y H) as [[E Q]|(e & E & He & L)]; destruct (x_rec_content ops r x) as [[ox rx] x1]; destruct (rec_content r y) as [[oy ry] y1]; cbn [fst snd] in *.
      - injection E as -> ->. left. split; [reflexivity|]. cbn [fst snd]. intro C. apply Q. intros ->. apply C. reflexivity.
      - subst ox. right. exists e. split; [reflexivity|]. split; [exact He|]. cbn [fst snd]. intro C. apply L. intros ->. apply C. reflexivity. }
    unfold x_rec_content_length, rec_content_length. destruct (r_content r); [exact S|]. destruct (get_header r (cl_name r)); [|exact S]. left. split; [reflexivity|intros _; exact H].
  Qed.
  Lemma ag_put b out x y r : held r -> Rst R x y -> FaultFacts.fits budget y -> Agl (x_emit_if ops budget b out x r) (emit_if b out y r).
  Proof.
    intros Hr H Hf. unfold x_emit_if, emit_if. destruct b; [|left; split; [reflexivity|]; split; [reflexivity|]; intros _; exact H].
    destruct Hr as [Hr|(r0 & c & ->)].
    - rewrite (proj2 (proj2 Hr)). exact (ag_emit ops budget R fault lost Hh Hlost out out x y r Hr eq_refl H Hf).
    - destruct (emit_held r0 c) as (o & txt & E). assert (Hc : r_content (with_cf (with_content r0 c) CF_none) = Some c) by reflexivity. rewrite Hc, !E.
      left. split; [reflexivity|]. split; [reflexivity|]. intros _. exact H.
  Qed.
  Lemma ag_step (G : record -> Prop) {A C} out y (X : outcome A * record * fstream F) (Y : outcome A * record * stream) (kx : A -> record -> fstream F -> outcome C * bytes * fstream F)
      (ky : A -> record -> stream -> outcome C * bytes * stream) :
    agr X Y -> later_with G y Y -> FaultFacts.fits budget y ->
    (forall a r x' y', G r -> Rst R x' y' -> FaultFacts.fits budget y' -> Agl (kx a r x') (ky a r y')) -> (forall a r y', G r -> tame out y' (ky a r y')) ->
    Agl (after_step X out kx) (after_step Y out ky).
  Proof.
    intros HA [L Q] Hf Hk Ht. destruct HA as [[E S]|(e & E & He & Lo)].
    - destruct X as [[ox rx] x1], Y as [[oy ry] y1]. cbn [fst snd] in *. injection E as -> ->. destruct oy as [a|e|]; cbn [after_step].
      + apply Hk; [exact (Q a eq_refl)|apply S; discriminate|exact (fits_later budget _ _ L Hf)].
      + left. split; [reflexivity|]. split; [reflexivity|]. intros _. apply S. discriminate.
      + left. split; [reflexivity|]. split; [reflexivity|]. intro C0. contradiction C0. reflexivity.
    - destruct X as [[ox rx] x1]. cbn [fst snd] in *. subst ox. right. exists e, out. cbn [after_step fst snd]. split; [reflexivity|]. split; [exact He|]. split; [reflexivity|].
      destruct Y as [[[a|e'|] ry] y1]; cbn [after_step fst snd] in *.
      + destruct (Ht a ry y1 (Q a eq_refl)) as [T1 T2]. split; [exact T2|]. intros _. exact (lost_later lost Hlost _ _ (Lo ltac:(discriminate)) T1).
      + split; [apply Pre_refl|]. intros _. apply Lo. discriminate.
      + split; [apply Pre_refl|]. intro C0. contradiction C0. reflexivity.
  Qed.
  Lemma ag_filter hg search opt invert : forall s1 s2 x y it, from_archive it -> s1 = s2 -> Rst R x y -> FaultFacts.fits budget y ->
    Agl (x_filter_record ops budget hg search opt invert s1 x it) (filter_record hg search opt invert s2 y it).
  Proof.
    intros out s2 x y r H <- HR Hf. assert (Hr : held r) by (left; exact H). rewrite filter_eq. unfold x_filter_record. cbv zeta.
    assert (Stay : forall (C : Type) (o : outcome C) x' y', Rst R x' y' -> Agl (o, out, x') (o, out, y')) by (intros C o x' y' Q; left; split; [reflexivity|]; split; [reflexivity|]; intros _; exact Q).
    assert (T : forall (C : Type) (o : outcome C) y', tame out y' (o, out, y')) by (intros; split; [apply later_refl|apply Pre_refl]).
    destruct opt; try (apply ag_put; assumption).
    - apply (ag_step held out y); [apply ag_content_type; assumption|apply content_type_tame, Hr|exact Hf| |].
      + intros ct r' x' y' Hr' HR' Hf'. destruct (truthy ct); [|apply ag_put; assumption].
        apply (ag_step held out y'); [apply ag_content_type; assumption|apply content_type_tame, Hr'|exact Hf'| |]; intros; [apply ag_put; assumption|apply put_tame; assumption].
      + intros ct r' y' Hr'. destruct (truthy ct); [|apply put_tame, Hr']. apply (step_tame held); [apply content_type_tame, Hr'|]. intros. apply put_tame. assumption.
    - destruct (is_some_eq _ _); [|apply Stay, HR]. apply (ag_step held out y); [apply ag_content_type; assumption|apply content_type_tame, Hr|exact Hf| |].
      + intros [ct|] r' x' y' Hr' HR' Hf'; [|apply Stay, HR']. destruct (startswith _ _); [|apply Stay, HR'].
        apply (ag_step held out y'); [apply ag_content; assumption|apply content_tame, Hr'|exact Hf'| |].
        * intros [c1 [c2|]] r2 x2 y2 Hr2 HR2 Hf2; cbn [snd]; [|apply Stay, HR2]. destruct (http_mime hg c2); [apply ag_put; assumption|apply Stay, HR2|apply Stay, HR2].
        * intros [c1 [c2|]] r2 y2 Hr2; cbn [snd]; [|apply T]. destruct (http_mime hg c2); [apply put_tame, Hr2|apply T|apply T].
      + intros [ct|] r' y' Hr'; [|apply T]. destruct (startswith _ _); [|apply T]. apply (step_tame held); [apply content_tame, Hr'|].
        intros [c1 [c2|]] r2 y2 Hr2; cbn [snd]; [|apply T]. destruct (http_mime hg c2); [apply put_tame, Hr2|apply T|apply T].
    - apply (ag_step held out y); [apply ag_content; assumption|apply content_tame, Hr|exact Hf| |].
      + intros [c1 [c2|]] r2 x2 y2 Hr2 HR2 Hf2; cbn [snd]; [|apply Stay, HR2]. apply ag_put; assumption.
      + intros [c1 [c2|]] r2 y2 Hr2; cbn [snd]; [|apply T]. apply put_tame, Hr2.
  Qed.
End Tools.

Lemma filter_later hg search opt invert : forall s st r, from_archive r -> later st (snd (filter_record hg search opt invert s st r)).
Proof. intros s st r H. exact (proj1 (filter_tame hg search opt invert s st r H)). Qed.
Lemma index_tame name out y it : tame out y (index_body name out y it).
Proof.
  rewrite index_eq. destruct it as [[off [r|]] errs]; [|split; [apply later_refl|apply Pre_refl]].
  apply (step_tame (fun _ => True)); [apply content_type_any|]. intros ct r1 y1 _. apply (step_tame (fun _ => True)); [apply content_length_any|]. intros n r2 y2 _.
  split; [apply later_refl|eexists; reflexivity].
Qed.

(** warcfilter (with any option) over a file some of whose calls fail: what is written is what would be written without the failure, or the beginning of
    it, and then the exception reaches the caller *)
Theorem C69_filtering : forall (F : Type) (ops : fops F) (same_file : F -> file -> Prop) (failure : exn -> Prop) (unreadable : file -> Prop)
    (budget : nat) (kind : skind) (p : parser) (bad : F) (good : file) (out : bytes) http_gz search (opt : fopt) (invert : bool),
  honest ops same_file failure unreadable ->
  (forall f f', unreadable f -> f_data f' = f_data f -> f_strict f' = f_strict f -> f_pos f <= f_pos f' -> unreadable f') ->
  same_file bad good -> file_fuel good <= budget ->
  let '(result, written, _) := x_for_records ops budget (x_filter_record ops budget http_gz search opt invert) out (x_new kind bad p) in
  let '(result0, written0, st0) := for_records (filter_record http_gz search opt invert) out (new_stream kind good p) in
  (result = result0 /\ written = written0) \/
  (exists e more, result = Raise e /\ failure e /\ written0 = written ++ more /\ (result0 <> Diverge -> unreadable (s_fh st0))).
Proof.
  intros F ops R0 fault lost0 budget kind p bad good out hg search opt invert Hh0 Hl0 H Hb.
  set (x := x_new kind bad p). set (y := new_stream kind good p).
  assert (Hr : List.length (StreamFacts.rest y) + 2 <= file_fuel good) by (exact (rest_len y)).
  assert (HR : Rst R0 x y) by (repeat split; exact H).
  assert (Hf : FaultFacts.fits budget y) by (unfold FaultFacts.fits; lia).
  assert (E : for_records (filter_record hg search opt invert) out y = iter_loop budget (filter_record hg search opt invert) out y).
  { unfold for_records. apply (iter_fuel _ from_archive read_from_archive (filter_later hg search opt invert)); [exact (rest_fuel y)|unfold bytes in *; lia]. }
  rewrite E. unfold x_for_records.
  pose proof (ag_iter ops budget R0 fault lost0 Hh0 Hl0 eq Pre Pre_refl Pre_trans (x_filter_record ops budget hg search opt invert) (filter_record hg search opt invert) from_archive read_from_archive
     (ag_filter ops budget R0 fault lost0 Hh0 Hl0 hg search opt invert) (filter_later hg search opt invert) (fun s st it G _ => proj2 (filter_tame hg search opt invert s st it G)) budget out out x y eq_refl HR Hf) as A.
  destruct (x_iter_loop ops budget budget (x_filter_record ops budget hg search opt invert) out x) as [[o h] x1].
  destruct (iter_loop budget (filter_record hg search opt invert) out y) as [[o0 h0] y1].
  destruct A as [(A1 & A2 & _)|(e & s & A1 & A2 & A3 & (more & A4) & A6)]; cbn [fst snd] in *.
  - left. split; assumption.
  - right. exists e, more. subst s. repeat split; assumption.
Qed.
(** and so for the lines of warcindex *)
Theorem C69_indexing : forall (F : Type) (ops : fops F) (same_file : F -> file -> Prop) (failure : exn -> Prop) (unreadable : file -> Prop)
    (budget : nat) (kind : skind) (p : parser) (bad : F) (good : file) (out name : bytes),
  honest ops same_file failure unreadable ->
  (forall f f', unreadable f -> f_data f' = f_data f -> f_strict f' = f_strict f -> f_pos f <= f_pos f' -> unreadable f') ->
  same_file bad good -> file_fuel good <= budget ->
  let '(result, written, _) := x_for_read_records ops budget None true (x_index_body ops name) out (x_new kind bad p) in
  let '(result0, written0, st0) := for_read_records None true (index_body name) out (new_stream kind good p) in
  (result = result0 /\ written = written0) \/
  (exists e more, result = Raise e /\ failure e /\ written0 = written ++ more /\ (result0 <> Diverge -> unreadable (s_fh st0))).
Proof.
  intros F ops R0 fault lost0 budget kind p bad good out name Hh0 Hl0 H Hb.
  set (x := x_new kind bad p). set (y := new_stream kind good p).
  assert (Hr : List.length (StreamFacts.rest y) + 2 <= file_fuel good) by (exact (rest_len y)).
  assert (HR : Rst R0 x y) by (repeat split; exact H).
  assert (Hf : FaultFacts.fits budget y) by (unfold FaultFacts.fits; lia).
  assert (L : forall s st it, later st (snd (index_body name s st it))) by (intros s st it; exact (proj1 (index_tame name s st it))).
  assert (E : for_read_records None true (index_body name) out y = read_loop budget None true (index_body name) out y).
  { unfold for_read_records. apply (loop_fuel _ _ L); [exact (rest_fuel y)|unfold bytes in *; lia]. }
  rewrite E. unfold x_for_read_records.
  assert (Hb2 : forall s1 s2 a b it, s1 = s2 -> Rst R0 a b -> FaultFacts.fits budget b -> agl R0 fault lost0 eq Pre (x_index_body ops name s1 a it) (index_body name s2 b it)).
  { intros s1 s2 a b it <- Ha Hfb. rewrite index_eq. unfold x_index_body. destruct it as [[off [r|]] errs]; [|left; split; [reflexivity|]; split; [reflexivity|]; intros _; exact Ha].
    apply (ag_step budget R0 fault lost0 Hl0 (fun _ => True) s1 b); [apply (ag_content_type ops R0 fault lost0 Hh0 Hl0), Ha|apply content_type_any|exact Hfb| |].
    - intros ct r1 a1 b1 _ Ha1 Hfb1. apply (ag_step budget R0 fault lost0 Hl0 (fun _ => True) s1 b1); [apply (ag_content_length ops R0 fault lost0 Hh0 Hl0), Ha1|apply content_length_any|exact Hfb1| |].
      + intros n r2 a2 b2 _ Ha2 _. left. split; [reflexivity|]. split; [reflexivity|]. intros _. exact Ha2.
      + intros n r2 b2 _. split; [apply later_refl|eexists; reflexivity].
    - intros ct r1 b1 _. apply (step_tame (fun _ => True)); [apply content_length_any|]. intros n r2 b2 _. split; [apply later_refl|eexists; reflexivity]. }
  pose proof (ag_loop ops budget R0 fault lost0 Hh0 Hl0 eq Pre Pre_refl Pre_trans (x_index_body ops name) (index_body name) Hb2 L (fun s st it _ => proj2 (index_tame name s st it))
     true budget None out out x y eq_refl HR Hf) as A.
  destruct (x_read_loop ops budget budget None true (x_index_body ops name) out x) as [[o h] x1].
  destruct (read_loop budget None true (index_body name) out y) as [[o0 h0] y1].
  destruct A as [(A1 & A2 & _)|(e & s & A1 & A2 & A3 & (more & A4) & A6)]; cbn [fst snd] in *.
  - left. split; assumption.
  - right. exists e, more. subst s. repeat split; assumption.
Qed.

(** ** Cut archives, exactly *)
Lemma head_some v hs : 0 < List.length (WarcSpec.head_text v hs).
Proof. unfold WarcSpec.head_text. rewrite !app_length. unfold CRLF. cbn [List.length]. lia. Qed.
Lemma whole_len w : List.length (wrec_text w) = List.length (WarcSpec.head_text (w_version w) (w_headers w)) + List.length (w_body w).
Proof. unfold wrec_text. apply app_length. Qed.
Lemma filtered_0 opt wanted a : filtered opt wanted a 0 = [].
Proof.
  destruct a as [|[w s] a]; [reflexivity|]. cbn [filtered]. pose proof (whole_len w) as W. pose proof (head_some (w_version w) (w_headers w)) as Hh.
  destruct (Nat.leb_spec (List.length (wrec_text w)) 0) as [L|L]; [lia|]. destruct (Nat.leb_spec (List.length (WarcSpec.head_text (w_version w) (w_headers w))) 0) as [L2|L2]; [lia|]. rewrite andb_false_r. reflexivity.
Qed.
Lemma indexed_0 name a : indexed name a 0 = [].
Proof.
  destruct a as [|[w s] a]; [reflexivity|]. cbn [indexed]. pose proof (whole_len w) as W. pose proof (head_some (w_version w) (w_headers w)) as Hh.
  destruct (Nat.leb_spec (index_needs w) 0) as [L|L]; [|reflexivity]. unfold index_needs in L. destruct (header_of "Content-Type" w); [destruct (header_of "Content-Length" w)|]; lia.
Qed.
Section CutTools.
  Variables (P X : bytes) (e : exn).
  Hypothesis HX : X <> [].
  Let k := List.length P.
  Notation same_cut := (cut_same P X e).
  Lemma later_cut (f f' : file) : cut_lost P f -> f_data f' = f_data f -> f_strict f' = f_strict f -> f_pos f <= f_pos f' -> cut_lost P f'.
  Proof. unfold cut_lost. intros; lia. Qed.
  Lemma emit_cut budget x y w after out : Rst same_cut x y -> in_payload y (w_body w) after -> List.length (w_body w) < budget ->
    exists x', let had := k - f_pos (s_fh y) in
    if Nat.leb (List.length (w_body w)) had then x_emit cut_ops budget out x (handed w) = (Ret tt, out ++ canonical w, x') /\ Rst same_cut x' (moved y (List.length (w_body w)) 0)
    else x_emit cut_ops budget out x (handed w) = (Raise e, out ++ WarcSpec.head_text (w_version w) (w_headers w) ++ firstn (PropsCutCopy.piece * (had / PropsCutCopy.piece)) (w_body w), x').
  Proof.
    intros HR Hi Hb. cbv zeta. unfold x_emit. cbn [handed parsed_rec r_class r_headers]. set (head := WarcSpec.head_text (w_version w) (w_headers w)).
    match goal with |- context [x_copy_loop cut_ops budget x (out ++ ?h)] => assert (Hhd : h = head) by (rewrite write_headers_all; unfold head, WarcSpec.head_text; reflexivity) end. rewrite Hhd.
    destruct (copy_of_cut P X e HX budget x y (w_body w) after (out ++ head) HR Hi Hb) as (x2 & Q). cbv zeta in Q. fold k in Q.
    exists x2. destruct (Nat.leb (List.length (w_body w)) (k - f_pos (s_fh y))).
    - destruct Q as [Q1 Q2]. rewrite Q1. split; [|exact Q2]. apply (f_equal (fun z => (Ret tt, z, x2))). unfold canonical, wrec_text, terminator. fold head. rewrite <- !app_assoc. reflexivity.
    - rewrite Q. apply (f_equal (fun z => (Raise e, z, x2))). rewrite <- app_assoc. reflexivity.
  Qed.
  (** reading the whole content: there if it is there *)
  Lemma content_cut x y w after : Rst same_cut x y -> in_payload y (w_body w) after ->
    exists x' r', r_class r' = RWarc (w_version w) /\ r_headers r' = w_headers w /\ r_cf r' = CF_none /\ r_content r' = Some (ctype w, Some (w_body w)) /\
    if Nat.leb (List.length (w_body w)) (k - f_pos (s_fh y)) then x_rec_content cut_ops (handed w) x = (Ret (ctype w, Some (w_body w)), r', x') /\ Rst same_cut x' (moved y (List.length (w_body w)) 0)
    else fst (fst (x_rec_content cut_ops (handed w) x)) = Raise e /\ snd (x_rec_content cut_ops (handed w) x) = x'.
  Proof.
    intros HR Hi. destruct (content_handed w y after Hi) as (r' & E & H1 & H2 & H3 & H4).
    pose proof (there P X e _ _ HR) as Hth. fold k in Hth.
    destruct (ag_content cut_ops same_cut (eq e) (cut_lost P) (cut_honest P X e HX) later_cut (handed w) x y HR) as [[A1 A2]|(e' & A1 & <- & A2)]; rewrite E in *; cbn [fst snd] in *.
    - specialize (A2 ltac:(discriminate)). assert (Hth2 : f_pos (s_fh y) + List.length (w_body w) <= k) by exact (there P X e _ _ A2).
      destruct (x_rec_content cut_ops (handed w) x) as [[ox rx] x1]. cbn [fst snd] in *. injection A1 as -> ->. exists x1, r'. repeat (split; [assumption|]).
      destruct (Nat.leb_spec (List.length (w_body w)) (k - f_pos (s_fh y))) as [L|L]; [|lia]. split; [reflexivity|exact A2].
    - specialize (A2 ltac:(discriminate)). assert (A3 : k < f_pos (s_fh y) + List.length (w_body w)) by exact A2.
      exists (snd (x_rec_content cut_ops (handed w) x)), r'. repeat (split; [assumption|]).
      destruct (Nat.leb_spec (List.length (w_body w)) (k - f_pos (s_fh y))) as [L|L]; [lia|]. split; [exact A1|reflexivity].
  Qed.
  (** a step on a record: what it writes if all of the record is there; otherwise *)
  Definition visited_cut {C} (x : fstream cutfile) (y : stream) (w : wrec) (out : bytes) (ok : C) (whole : bytes) (torn : option bytes) (Z : outcome C * bytes * fstream cutfile) : Prop :=
    if Nat.leb (List.length (w_body w)) (k - f_pos (s_fh y)) then fst Z = (Ret ok, out ++ whole) /\ exists y', used y (List.length (w_body w)) y' /\ Rst same_cut (snd Z) y'
    else match torn with
         | Some t => fst Z = (Raise e, out ++ t)
         | None => fst Z = (Ret ok, out) /\ Rst same_cut (snd Z) y
         end.
  Lemma put_cut budget (b : bool) x y w after out : Rst same_cut x y -> in_payload y (w_body w) after -> List.length (w_body w) < budget ->
    visited_cut x y w out tt (if b then canonical w else [])
      (if b then Some (WarcSpec.head_text (w_version w) (w_headers w) ++ firstn (PropsCutCopy.piece * ((k - f_pos (s_fh y)) / PropsCutCopy.piece)) (w_body w)) else None)
      (x_emit_if cut_ops budget b out x (handed w)).
  Proof.
    intros HR Hi Hb. unfold visited_cut, x_emit_if. destruct b.
    - change (r_content (handed w)) with (@None (option bytes * option bytes)). cbv iota.
      destruct (emit_cut budget x y w after out HR Hi Hb) as (x' & Q). cbv zeta in Q. destruct (Nat.leb (List.length (w_body w)) (k - f_pos (s_fh y))).
      + destruct Q as [Q1 Q2]. rewrite Q1. split; [reflexivity|]. eexists. split; [apply used_all|exact Q2].
      + rewrite Q. reflexivity.
    - rewrite app_nil_r. destruct (Nat.leb _ _); (split; [reflexivity|]); [|exact HR]. eexists. split; [exact (used_refl _ _ _ Hi)|exact HR].
  Qed.
  Lemma memory_cut budget (b : bool) x out r' w : r_class r' = RWarc (w_version w) -> r_headers r' = w_headers w -> r_cf r' = CF_none -> r_content r' = Some (ctype w, Some (w_body w)) ->
    x_emit_if cut_ops budget b out x r' = (Ret tt, out ++ (if b then canonical (from_memory w) else []), x).
  Proof.
    intros H1 H2 H3 H4. unfold x_emit_if. destruct b; [|rewrite app_nil_r; reflexivity]. rewrite H4.
    pose proof (emit_if_memory true out nowhere r' w H1 H2 H3 H4) as Q. unfold emit_if in Q. rewrite Q. reflexivity.
  Qed.
  Lemma filter_cut budget hg search opt invert x y w after out : opt <> FHttpType -> Rst same_cut x y -> in_payload y (w_body w) after -> List.length (w_body w) < budget ->
    let wanted := selected search opt invert w in
    visited_cut x y w out tt (if wanted then as_written opt w else [])
      (if streams opt w then if wanted then Some (WarcSpec.head_text (w_version w) (w_headers w) ++ firstn (PropsCutCopy.piece * ((k - f_pos (s_fh y)) / PropsCutCopy.piece)) (w_body w)) else None else Some [])
      (x_filter_record cut_ops budget hg search opt invert out x (handed w)).
  Proof.
    intros Ho HR Hi Hb. cbv zeta. unfold as_written, selected, matches, streams. destruct opt; try contradiction; unfold x_filter_record; cbv zeta.
    - rewrite rec_url_handed, opt_search_found. apply (put_cut _ _ _ _ _ _ _ HR Hi Hb).
    - rewrite rec_type_handed, opt_search_found. apply (put_cut _ _ _ _ _ _ _ HR Hi Hb).
    - unfold x_rec_content_type at 1. change (r_content (handed w)) with (@None (option bytes * option bytes)). cbv iota. rewrite ct_handed. change (header_of "Content-Type" w) with (ctype w).
      destruct (ctype w) as [v|] eqn:Ec.
      + cbn [after_step]. destruct v as [|c v]; cbn [truthy].
        * change (found_in search (Some [])) with false. rewrite xorb_false_l. apply (put_cut _ _ _ _ _ _ _ HR Hi Hb).
        * unfold x_rec_content_type. change (r_content (handed w)) with (@None (option bytes * option bytes)). cbv iota. rewrite ct_handed, Ec. cbn [after_step]. rewrite opt_search_found. apply (put_cut _ _ _ _ _ _ _ HR Hi Hb).
      + destruct (content_cut x y w after HR Hi) as (x' & r' & H1 & H2 & H3 & H4 & Q). unfold visited_cut. destruct (Nat.leb (List.length (w_body w)) (k - f_pos (s_fh y))).
        * destruct Q as [Q1 Q2]. rewrite Q1, Ec. cbn [omap fst after_step truthy found_in]. rewrite xorb_false_l. rewrite (memory_cut budget invert x' out r' w H1 H2 H3 H4).
          cbn [fst snd]. split; [reflexivity|]. eexists. split; [apply used_all|exact Q2].
        * destruct (x_rec_content cut_ops (handed w) x) as [[o r2] x2]. cbn [fst snd] in Q. destruct Q as [-> ->]. cbn [omap after_step fst snd]. rewrite app_nil_r. reflexivity.
    - rewrite rec_date_handed, opt_search_found. apply (put_cut _ _ _ _ _ _ _ HR Hi Hb).
    - destruct (content_cut x y w after HR Hi) as (x' & r' & H1 & H2 & H3 & H4 & Q). unfold visited_cut. destruct (Nat.leb (List.length (w_body w)) (k - f_pos (s_fh y))).
      + destruct Q as [Q1 Q2]. rewrite Q1. cbn [after_step snd]. rewrite (memory_cut budget _ x' out r' w H1 H2 H3 H4). cbn [fst snd]. split; [reflexivity|]. eexists. split; [apply used_all|exact Q2].
      + destruct (x_rec_content cut_ops (handed w) x) as [[o r2] x2]. cbn [fst snd] in Q. destruct Q as [-> ->]. cbn [after_step fst snd]. rewrite app_nil_r. reflexivity.
  Qed.
  Lemma cut_fits budget x y : Rst same_cut x y -> List.length (P ++ X) + 2 <= budget -> FaultFacts.fits budget y.
  Proof. intros (_ & _ & _ & (_ & H & _)) Hb. unfold FaultFacts.fits, StreamFacts.rest, f_rest. rewrite H, skipn_length. lia. Qed.
  Lemma filter_loop_cut budget hg search opt invert (Ho : opt <> FHttpType) a : forall fuel x y start out, archive_ok a -> List.length a < fuel -> Rst same_cut x y -> List.length (P ++ X) + 2 <= budget ->
    at_text y start (archive_text a) -> start + List.length (archive_text a) = List.length (P ++ X) -> s_parser y = PWarc -> s_kind y = SGzipRecord ->
    exists x', x_iter_loop cut_ops budget fuel (x_filter_record cut_ops budget hg search opt invert) out x = (Raise e, out ++ filtered opt (selected search opt invert) a (k - start), x').
  Proof.
    pose proof (X_some X HX) as X1. induction a as [|[w sep] a IH]; intros fuel x y start out Hok Hf HR Hb Hat Htot Hp Hk; (destruct fuel as [|fuel]; [cbn in Hf; lia|]); cbn [x_iter_loop filtered];
      pose proof (ag_record cut_ops budget same_cut (eq e) (cut_lost P) (cut_honest P X e HX) later_cut x y false HR (cut_fits budget x y HR Hb)) as A.
    - destruct (at_text_fresh _ _ _ Hat) as (st0 & Heq & He & Hr & Hpos & Hk0 & Hp0 & Hf0). rewrite Heq, (read_end st0 false He) in A; [|congruence|congruence|exact Hr].
      destruct A as [(A1 & A2)|(e' & A1 & <- & A2)]; destruct (x_read_record cut_ops budget x false) as [ox x1]; cbn [fst snd] in *; subst ox.
      + exfalso. specialize (A2 ltac:(discriminate)). pose proof (there P X e _ _ A2) as Hth. assert (Q : f_pos (s_fh st0) = start) by exact Hpos. cbn in Hth. cbn in Htot. rewrite app_length in Htot. unfold k in *. lia.
      + exists x1. rewrite app_nil_r. reflexivity.
    - inversion Hok as [|? ? [Hw Hsep] Hok']; subst. cbn [fst snd] in Hw, Hsep.
      destruct (read_first y start w sep a false Hat Hp ltac:(congruence) Hw) as (y1 & E & Hi & Hk1 & Hp1 & Hf1 & Hpos1). rewrite E in A.
      set (head := WarcSpec.head_text (w_version w) (w_headers w)) in *. pose proof (whole_len w) as Ht. fold head in Ht.
      assert (P1 : f_pos (s_fh y1) = start + List.length head) by (unfold pos, f_tell in Hpos1; lia).
      pose proof (head_some (w_version w) (w_headers w)) as Hh. fold head in Hh.
      rewrite archive_text_cons, (app_length (wrec_text w)), (app_length sep) in Htot.
      assert (Next : forall st', used y1 (List.length (w_body w)) st' -> at_text st' (start + List.length (wrec_text w) + List.length sep) (archive_text a)).
      { intros st' Hu. apply (at_text_next y1 (w_body w) _ sep); [exact Hi|exact Hu|exact Hsep|lia]. }
      destruct A as [(A1 & A2)|(e' & A1 & <- & A2)]; destruct (x_read_record cut_ops budget x false) as [ox x1]; cbn [fst snd] in *; subst ox.
      + specialize (A2 ltac:(discriminate)). pose proof (there P X e _ _ A2) as Hth. rewrite P1 in Hth. fold k in Hth.
        assert (Hl : List.length (w_body w) < budget).
        { pose proof (cut_fits budget x1 y1 A2 Hb) as Q. unfold FaultFacts.fits in Q. destruct Hi as [_ Hr]. rewrite Hr, app_length in Q. lia. }
        pose proof (filter_cut budget hg search opt invert x1 y1 w _ out Ho A2 Hi Hl) as Q. cbv zeta in Q. unfold visited_cut in Q. rewrite P1 in Q. fold head in Q.
        replace (k - (start + List.length head)) with (k - start - List.length head) in Q by lia.
        destruct (Nat.leb_spec (List.length (w_body w)) (k - start - List.length head)) as [L|L].
        * destruct (Nat.leb_spec (List.length (wrec_text w)) (k - start)) as [L'|L']; [|lia].
          destruct (x_filter_record cut_ops budget hg search opt invert out x1 (handed w)) as [[o2 out2] x2]. cbn [fst snd] in Q. destruct Q as (Q1 & y' & Q2 & Q3). injection Q1 as -> ->.
          destruct (used_payload _ _ _ _ Hi Q2) as (l' & _ & Pp & Pk & _).
          destruct (IH fuel x2 y' _ (out ++ (if selected search opt invert w then as_written opt w else [])) Hok' ltac:(cbn in Hf; lia) Q3 Hb (Next y' Q2) ltac:(lia) ltac:(congruence) ltac:(congruence)) as (x3 & Q4).
          exists x3. etransitivity; [exact Q4|]. replace (k - (start + List.length (wrec_text w) + List.length sep)) with (k - start - List.length (wrec_text w) - List.length sep) by lia.
          rewrite <- app_assoc. reflexivity.
        * destruct (Nat.leb_spec (List.length (wrec_text w)) (k - start)) as [L'|L']; [lia|]. destruct (Nat.leb_spec (List.length head) (k - start)) as [L2|L2]; [|lia]. rewrite andb_true_r.
          destruct (x_filter_record cut_ops budget hg search opt invert out x1 (handed w)) as [[o2 out2] x2]. cbn [fst snd] in Q. destruct (streams opt w); [rewrite andb_true_r; destruct (selected search opt invert w)|rewrite andb_false_r].
          -- pose proof (f_equal fst Q) as Qa. pose proof (f_equal snd Q) as Qb. cbn [fst snd] in Qa, Qb. rewrite Qa, Qb. exists x2. reflexivity.
          -- destruct Q as [Q1 Q3]. injection Q1 as -> ->.
             destruct (IH fuel x2 y1 _ out Hok' ltac:(cbn in Hf; lia) Q3 Hb (Next y1 (used_refl _ _ _ Hi)) ltac:(lia) Hp1 ltac:(congruence)) as (x3 & Q4).
             exists x3. etransitivity; [exact Q4|]. replace (k - (start + List.length (wrec_text w) + List.length sep)) with 0 by lia. rewrite filtered_0. reflexivity.
          -- injection Q as -> ->. exists x2. reflexivity.
      + specialize (A2 ltac:(discriminate)). unfold cut_lost in A2. rewrite P1 in A2. fold k in A2. exists x1.
        destruct (Nat.leb_spec (List.length (wrec_text w)) (k - start)) as [L'|L']; [lia|]. destruct (Nat.leb_spec (List.length head) (k - start)) as [L2|L2]; [lia|]. rewrite andb_false_r, app_nil_r. reflexivity.
  Qed.
  (** warcindex: one record *)
  Lemma index_cut name x y w after out off : length_honest w -> Rst same_cut x y -> in_payload y (w_body w) after ->
    let Z := x_index_body cut_ops name out x (off, Some (handed w), []) in
    let line := index_line name (show_offset off) w in
    if Nat.leb (index_needs w - List.length (WarcSpec.head_text (w_version w) (w_headers w))) (k - f_pos (s_fh y)) then
      fst Z = (Ret true, out ++ line) /\ exists y', used y (List.length (w_body w)) y' /\ Rst same_cut (snd Z) y'
    else fst Z = (Raise e, out).
  Proof.
    intros Hh HR Hi. cbv zeta. pose proof (whole_len w) as Hw.
    assert (L : forall ct, join (B " ") [name; show_offset off; or_dash (rec_type (handed w)); or_dash (rec_url (handed w)); or_dash (rec_id (handed w)); or_dash ct; dec_Z (Z.of_nat (List.length (w_body w)))] ++ [LF] =
       name ++ B " " ++ show_offset off ++ B " " ++ field_or_dash (header_of "WARC-Type" w) ++ B " " ++ field_or_dash (header_of "WARC-Target-URI" w) ++ B " " ++ field_or_dash (header_of "WARC-Record-ID" w) ++ B " " ++ field_or_dash ct ++ B " " ++ dec_nat (List.length (w_body w)) ++ [LF]).
    { intro ct. rewrite !dash_eq, rec_type_handed, rec_url_handed, rec_id_handed, dec_Z_nat. cbn [join]. rewrite <- !app_assoc. reflexivity. }
    unfold x_index_body, x_rec_content_type. change (r_content (handed w)) with (@None (option bytes * option bytes)). cbv iota. rewrite ct_handed. unfold index_line, index_needs.
    change (header_of "Content-Type" w) with (ctype w). destruct (ctype w) as [ct|] eqn:Ec.
    - cbn [after_step]. unfold x_rec_content_length. change (r_content (handed w)) with (@None (option bytes * option bytes)). cbv iota. rewrite cl_handed.
      destruct (header_of "Content-Length" w) as [v|] eqn:El.
      + rewrite Nat.sub_diag. cbn [Nat.leb]. rewrite (Hh v El). cbn [after_step fst snd]. rewrite L. split; [reflexivity|]. eexists. split; [eapply used_refl; exact Hi|exact HR].
      + rewrite Hw. replace (List.length (WarcSpec.head_text (w_version w) (w_headers w)) + List.length (w_body w) - List.length (WarcSpec.head_text (w_version w) (w_headers w))) with (List.length (w_body w)) by lia.
        destruct (content_cut x y w after HR Hi) as (x' & r' & H1 & H2 & H3 & H4 & Q). destruct (Nat.leb (List.length (w_body w)) (k - f_pos (s_fh y))).
        * destruct Q as [Q1 Q2]. rewrite Q1. cbn [bind snd after_step fst]. rewrite L. split; [reflexivity|]. eexists. split; [apply used_all|exact Q2].
        * destruct (x_rec_content cut_ops (handed w) x) as [[o r2] x2]. cbn [fst snd] in Q. destruct Q as [-> _]. reflexivity.
    - rewrite Hw. replace (List.length (WarcSpec.head_text (w_version w) (w_headers w)) + List.length (w_body w) - List.length (WarcSpec.head_text (w_version w) (w_headers w))) with (List.length (w_body w)) by lia.
      destruct (content_cut x y w after HR Hi) as (x' & r' & H1 & H2 & H3 & H4 & Q). destruct (Nat.leb (List.length (w_body w)) (k - f_pos (s_fh y))).
      + destruct Q as [Q1 Q2]. rewrite Q1. cbn [omap fst after_step]. unfold x_rec_content_length, x_rec_content. rewrite H4. cbn [bind snd after_step fst]. rewrite L, Ec. split; [reflexivity|]. eexists. split; [apply used_all|exact Q2].
      + destruct (x_rec_content cut_ops (handed w) x) as [[o r2] x2]. cbn [fst snd] in Q. destruct Q as [-> _]. reflexivity.
  Qed.
  Lemma needs_head w : List.length (WarcSpec.head_text (w_version w) (w_headers w)) <= index_needs w.
  Proof. pose proof (whole_len w). unfold index_needs. destruct (header_of "Content-Type" w); [destruct (header_of "Content-Length" w)|]; lia. Qed.
  Lemma index_loop_cut name budget a : forall fuel x y start out, archive_ok a -> Forall (fun p => length_honest (fst p)) a -> List.length a < fuel -> Rst same_cut x y -> List.length (P ++ X) + 2 <= budget ->
    at_text y start (archive_text a) -> start + List.length (archive_text a) = List.length (P ++ X) -> s_parser y = PWarc -> s_kind y = SGzipRecord ->
    exists x', x_read_loop cut_ops budget fuel None true (x_index_body cut_ops name) out x = (Raise e, out ++ indexed name a (k - start), x').
  Proof.
    pose proof (X_some X HX) as X1. induction a as [|[w sep] a IH]; intros fuel x y start out Hok Hhon Hf HR Hb Hat Htot Hp Hk; (destruct fuel as [|fuel]; [cbn in Hf; lia|]); cbn [x_read_loop indexed];
      pose proof (ag_record cut_ops budget same_cut (eq e) (cut_lost P) (cut_honest P X e HX) later_cut x y true HR (cut_fits budget x y HR Hb)) as A.
    - destruct (at_text_fresh _ _ _ Hat) as (st0 & Heq & He & Hr & Hpos & Hk0 & Hp0 & Hf0). rewrite Heq, (read_end st0 true He) in A; [|congruence|congruence|exact Hr].
      destruct A as [(A1 & A2)|(e' & A1 & <- & A2)]; destruct (x_read_record cut_ops budget x true) as [ox x1]; cbn [fst snd] in *; subst ox.
      + exfalso. specialize (A2 ltac:(discriminate)). pose proof (there P X e _ _ A2) as Hth. assert (Q : f_pos (s_fh st0) = start) by exact Hpos. cbn in Hth. cbn in Htot. rewrite app_length in Htot. unfold k in *. lia.
      + exists x1. rewrite app_nil_r. reflexivity.
    - inversion Hok as [|? ? [Hw Hsep] Hok']; subst. inversion Hhon as [|? ? Hh0 Hhon']; subst. cbn [fst snd] in Hw, Hsep, Hh0.
      destruct (read_first y start w sep a true Hat Hp ltac:(congruence) Hw) as (y1 & E & Hi & Hk1 & Hp1 & Hf1 & Hpos1). rewrite E, Hk in A. cbn [item_offset] in A.
      set (head := WarcSpec.head_text (w_version w) (w_headers w)) in *. pose proof (whole_len w) as Ht. fold head in Ht. pose proof (needs_head w) as Hn. fold head in Hn. pose proof (head_some (w_version w) (w_headers w)) as Hhs. fold head in Hhs.
      assert (Hn2 : index_needs w <= List.length (wrec_text w)) by (unfold index_needs; fold head; destruct (header_of "Content-Type" w); [destruct (header_of "Content-Length" w)|]; lia).
      assert (P1 : f_pos (s_fh y1) = start + List.length head) by (unfold pos, f_tell in Hpos1; lia).
      rewrite archive_text_cons, (app_length (wrec_text w)), (app_length sep) in Htot.
      destruct A as [(A1 & A2)|(e' & A1 & <- & A2)]; destruct (x_read_record cut_ops budget x true) as [ox x1]; cbn [fst snd] in *; subst ox.
      + specialize (A2 ltac:(discriminate)). pose proof (there P X e _ _ A2) as Hth. rewrite P1 in Hth. fold k in Hth.
        pose proof (index_cut name x1 y1 w _ out None Hh0 A2 Hi) as Q. cbv zeta in Q. rewrite P1 in Q. fold head in Q.
        change (show_offset None) with (B "None") in Q.
        destruct (x_index_body cut_ops name out x1 (None, Some (handed w), [])) as [[o2 out2] x2] eqn:Ebody. cbn [fst snd] in Q.
        destruct (Nat.leb_spec (index_needs w) (k - start)) as [L|L]; destruct (Nat.leb_spec (index_needs w - List.length head) (k - (start + List.length head))) as [L'|L']; try lia.
        * destruct Q as (Q1 & y' & Q2 & Q3). pose proof (f_equal fst Q1) as Qa. pose proof (f_equal snd Q1) as Qb. cbn [fst snd] in Qa, Qb. subst o2.
          destruct (used_payload _ _ _ _ Hi Q2) as (l' & _ & Pp & Pk & _).
          assert (Hat2 : at_text y' (start + List.length (wrec_text w) + List.length sep) (archive_text a)) by (apply (at_text_next y1 (w_body w) _ sep); [exact Hi|exact Q2|exact Hsep|lia]).
          destruct (IH fuel x2 y' _ out2 Hok' Hhon' ltac:(cbn in Hf; lia) Q3 Hb Hat2 ltac:(lia) ltac:(congruence) ltac:(congruence)) as (x3 & Q4).
          exists x3. etransitivity; [exact Q4|]. rewrite Qb. replace (k - (start + List.length (wrec_text w) + List.length sep)) with (k - start - List.length (wrec_text w) - List.length sep) by lia.
          rewrite <- app_assoc. reflexivity.
        * pose proof (f_equal fst Q) as Qa. pose proof (f_equal snd Q) as Qb. cbn [fst snd] in Qa, Qb. rewrite Qa, Qb, app_nil_r. exists x2. reflexivity.
      + specialize (A2 ltac:(discriminate)). unfold cut_lost in A2. rewrite P1 in A2. fold k in A2. exists x1.
        destruct (Nat.leb_spec (index_needs w) (k - start)) as [L|L]; [lia|]. rewrite app_nil_r. reflexivity.
  Qed.
End CutTools.

(** ** The theorems *)
Lemma cut_start a k e : k < List.length (archive_text a) ->
  let P := firstn k (archive_text a) in let X := skipn k (archive_text a) in let y := new_stream SGzipRecord (mkfile (P ++ X) 0 true) PWarc in
  archive_text a = P ++ X /\ X <> [] /\ List.length P = k /\ at_text y 0 (archive_text a) /\ Rst (cut_same P X e) (open_cut PWarc P e) y.
Proof.
  intros Hk P X y. assert (E : archive_text a = P ++ X) by (symmetry; apply firstn_skipn).
  assert (HX : X <> []) by (intro Z; assert (List.length X = 0) by (rewrite Z; reflexivity); unfold X in *; rewrite skipn_length in *; lia).
  assert (Hl : List.length P = k) by (unfold P; rewrite firstn_length; lia).
  split; [exact E|]. split; [exact HX|]. split; [exact Hl|]. split; [|repeat split; cbn; lia].
  left. split; [reflexivity|]. exists []. split; [rewrite E; reflexivity|]. split; [|reflexivity]. split; [intros c []|left; reflexivity].
Qed.
(** what warcfilter - with any option but -H - writes of a compressed archive that is cut off, and how it ends *)
Theorem C69_filtering_a_cut_archive : forall (a : archive) (k : nat) (e : exn) (budget : nat) (out : bytes) http_gz search (opt : fopt) (invert : bool),
  archive_ok a -> opt <> FHttpType -> k < List.length (archive_text a) -> List.length (archive_text a) + 2 <= budget ->
  exists st, x_for_records cut_ops budget (x_filter_record cut_ops budget http_gz search opt invert) out (open_cut PWarc (firstn k (archive_text a)) e) =
    (Raise e, out ++ filtered opt (selected search opt invert) a k, st).
Proof.
  intros a k e budget out hg search opt invert Hok Ho Hk Hb. destruct (cut_start a k e Hk) as (E & HX & Hl & Hat & HR).
  set (P := firstn k (archive_text a)) in *. set (X := skipn k (archive_text a)) in *. pose proof (archive_text_records a) as Hn.
  destruct (filter_loop_cut P X e HX budget hg search opt invert Ho a budget _ _ 0 out Hok ltac:(unfold bytes in *; lia) HR ltac:(rewrite <- E; exact Hb) Hat ltac:(rewrite <- E; reflexivity) eq_refl eq_refl) as (st & Q).
  exists st. unfold x_for_records. rewrite Hl, Nat.sub_0_r in Q. exact Q.
Qed.
(** what warcindex prints of it *)
Theorem C69_indexing_a_cut_archive : forall (a : archive) (k : nat) (e : exn) (budget : nat) (out name : bytes),
  archive_ok a -> Forall (fun p => length_honest (fst p)) a -> k < List.length (archive_text a) -> List.length (archive_text a) + 2 <= budget ->
  exists st, x_for_read_records cut_ops budget None true (x_index_body cut_ops name) out (open_cut PWarc (firstn k (archive_text a)) e) =
    (Raise e, out ++ indexed name a k, st).
Proof.
  intros a k e budget out name Hok Hh Hk Hb. destruct (cut_start a k e Hk) as (E & HX & Hl & Hat & HR).
  set (P := firstn k (archive_text a)) in *. set (X := skipn k (archive_text a)) in *. pose proof (archive_text_records a) as Hn.
  destruct (index_loop_cut P X e HX name budget a budget _ _ 0 out Hok Hh ltac:(unfold bytes in *; lia) HR ltac:(rewrite <- E; exact Hb) Hat ltac:(rewrite <- E; reflexivity) eq_refl eq_refl) as (st & Q).
  exists st. unfold x_for_read_records. rewrite Hl, Nat.sub_0_r in Q. exact Q.
Qed.

(** The shape of what is written: the selected records of those that are there, and perhaps a torn one *)
Lemma filtered_shape opt wanted a : archive_ok a -> forall k, k < List.length (archive_text a) ->
  let first := firstn (whole_records a k) (map fst a) in
  filtered opt wanted a k = concat (map (as_written opt) (filter wanted first)) \/
  exists w have, nth_error (map fst a) (whole_records a k) = Some w /\ wanted w = true /\ streams opt w = true /\ wrec_ok w /\ have < List.length (w_body w) /\
    filtered opt wanted a k = concat (map (as_written opt) (filter wanted first)) ++ WarcSpec.head_text (w_version w) (w_headers w) ++ firstn have (w_body w).
Proof.
  induction a as [|[w s] a IH]; intros Hok k Hk; cbn [whole_records filtered map firstn fst nth_error]; [left; reflexivity|]. inversion Hok as [|? ? [Hw Hsep] Hok']; subst. cbn [fst snd] in *.
  rewrite archive_text_cons, (app_length (wrec_text w)), (app_length s) in Hk. destruct (Nat.leb_spec (List.length (wrec_text w)) k) as [L|L].
  - cbn [firstn map filter nth_error]. set (k' := k - List.length (wrec_text w) - List.length s) in *.
    assert (IH' : filtered opt wanted a k' = concat (map (as_written opt) (filter wanted (firstn (whole_records a k') (map fst a)))) \/
      exists w2 have, nth_error (map fst a) (whole_records a k') = Some w2 /\ wanted w2 = true /\ streams opt w2 = true /\ wrec_ok w2 /\ have < List.length (w_body w2) /\
        filtered opt wanted a k' = concat (map (as_written opt) (filter wanted (firstn (whole_records a k') (map fst a)))) ++ WarcSpec.head_text (w_version w2) (w_headers w2) ++ firstn have (w_body w2)).
    { destruct (Nat.le_gt_cases (List.length (archive_text a)) k') as [Z|Z]; [|exact (IH Hok' k' Z)].
      destruct a as [|[w2 s2] a]; [left; reflexivity|].
      assert (N0 : 0 < List.length (archive_text ((w2, s2) :: a))) by (rewrite archive_text_cons, app_length; pose proof (wrec_text_nonempty w2); lia). unfold k' in Z. lia. }
    destruct IH' as [E|(w2 & have & E1 & E2 & E3 & E4 & E5 & E6)].
    + left. rewrite E. destruct (wanted w); reflexivity.
    + right. exists w2, have. repeat (split; [assumption|]). rewrite E6. destruct (wanted w); [|reflexivity]. cbn [map concat]. rewrite <- !app_assoc. reflexivity.
  - cbn [firstn map filter concat nth_error]. set (head := WarcSpec.head_text (w_version w) (w_headers w)) in *.
    destruct (wanted w) eqn:Ew; [|left; reflexivity]. destruct (streams opt w) eqn:Es; [|left; reflexivity]. cbn [andb].
    destruct (Nat.leb_spec (List.length head) k) as [L2|L2]; [right|left; reflexivity].
    match goal with |- context [firstn ?h (w_body w)] => exists w, h end. split; [reflexivity|]. split; [exact Ew|]. split; [exact Es|]. split; [exact Hw|]. split; [|symmetry; exact (app_nil_l (head ++ _))].
    pose proof piece_pos as Pp. pose proof (Nat.mul_div_le (k - List.length head) PropsCutCopy.piece ltac:(lia)) as M. assert (W : List.length (wrec_text w) = List.length head + List.length (w_body w)) by (unfold wrec_text; apply app_length).
    apply (Nat.le_lt_trans _ _ _ M). clear - L L2 W. lia.
Qed.
(** The file warcfilter leaves when it stops at the cut: a valid archive of selected records, or one that warcvalid rejects since it ends in a torn record - the
    latter never without an option (the record is read into memory before it is written). *)
Theorem C69_the_filtered_left : forall (a : archive) (k : nat) (e : exn) (budget : nat) (i : input) http_gz search (opt : fopt) (invert : bool) result out st gunzip,
  archive_ok a -> opt <> FHttpType -> k < List.length (archive_text a) -> List.length (archive_text a) + 2 <= budget ->
  x_for_records cut_ops budget (x_filter_record cut_ops budget http_gz search opt invert) [] (open_cut PWarc (firstn k (archive_text a)) e) = (result, out, st) -> saved i out ->
  let chosen := filter (selected search opt invert) (firstn (whole_records a k) (map fst a)) in
  (out = concat (map (as_written opt) chosen) /\ warcvalid gunzip [i] = Ret 0%Z) \/
  (exists w have, nth_error (map fst a) (whole_records a k) = Some w /\ selected search opt invert w = true /\ opt <> FAny /\ have < List.length (w_body w) /\
     out = concat (map (as_written opt) chosen) ++ WarcSpec.head_text (w_version w) (w_headers w) ++ firstn have (w_body w) /\ warcvalid gunzip [i] = Ret (-1)%Z).
Proof.
  intros a k e budget i hg search opt invert result out st gunzip Hok Ho Hk Hb E Hs. cbv zeta. destruct (C69_filtering_a_cut_archive a k e budget [] hg search opt invert Hok Ho Hk Hb) as (st' & E').
  rewrite E' in E. pose proof (f_equal (fun z => snd (fst z)) E) as Eo. cbn [fst snd app] in Eo. clear E E'. set (first := firstn (whole_records a k) (map fst a)).
  assert (Hf : Forall wrec_ok first).
  { apply Forall_forall. intros w Hin. assert (Hin' : In w (map fst a)). { rewrite <- (firstn_skipn (whole_records a k) (map fst a)). apply in_or_app. left. exact Hin. }
    apply in_map_iff in Hin' as ([w0 s0] & <- & Hin'). unfold archive_ok in Hok. rewrite Forall_forall in Hok. exact (proj1 (Hok _ Hin')). }
  pose proof (selected_ok (selected search opt invert) opt first Hf) as Hc. rewrite <- Eo in Hs. rewrite <- Eo.
  destruct (filtered_shape opt (selected search opt invert) a Hok k Hk) as [Q|(w & have & Q1 & Q2 & Q3 & Q4 & Q5 & Q6)].
  - left. split; [exact Q|]. rewrite Q, written_map in Hs. apply (C48_intact_archives_accepted gunzip [i] [map (fun w => (w, terminator)) (map (kept opt) (filter (selected search opt invert) first))]). constructor; [exact (saved_holds gunzip i _ Hc Hs)|constructor].
  - right. exists w, have. split; [exact Q1|]. split; [exact Q2|]. split; [intro Z; rewrite Z in Q3; discriminate|]. split; [exact Q5|]. split; [exact Q6|]. rewrite Q6, written_map in Hs.
    apply (C48_truncated_payload_rejected gunzip [] [] i (map (fun w => (w, terminator)) (map (kept opt) (filter (selected search opt invert) first))) w have); [constructor|apply canonical_ok, Hc|exact Q4|exact Q5|].
    left. apply torn_plain; assumption.
Qed.

(** ** Concrete cases *)
(** three records - with type and length, with length only, and one that is not selected - cut at every place *)
Definition tools_sample : archive :=
  [ (mkw (B "WARC/1.0") [(B "WARC-Type", B "response"); (B "Content-Type", B "text/x"); (B "Content-Length", B "9000")] (repeat 120%N 9000), terminator);
    (mkw (B "WARC/1.0") [(B "WARC-Type", B "request"); (B "Content-Type", B "text/x"); (B "Content-Length", B "2")] (B "yy"), terminator);
    (mkw (B "WARC/1.0") [(B "WARC-Type", B "response"); (B "Content-Length", B "3")] (B "zzz"), terminator) ].
Definition responses (s : bytes) : bool := bytes_eqb s (B "response").

Example C69_filtering_met :
  archive_ok tools_sample /\ Forall (fun p => length_honest (fst p)) tools_sample /\
  map (selected responses FType false) (map fst tools_sample) = [true; false; true] /\
  (** nothing before the head is there; the head and one piece; the whole record *)
  filtered FType (selected responses FType false) tools_sample 76 = [] /\
  List.length (filtered FType (selected responses FType false) tools_sample 8900) = 77 + PropsCutCopy.piece /\
  filtered FType (selected responses FType false) tools_sample (start_of tools_sample 1 + 20) = as_written FType (fst (nth 0 tools_sample (mkw [] [] [], []))) /\
  (** the same without an option: nothing of the torn record *)
  filtered FAny (selected (fun _ => true) FAny false) tools_sample 8900 = [].
Proof.
  split; [apply archive_okb_sound; vm_compute; reflexivity|]. split.
  { repeat constructor; intros v Hv; vm_compute in Hv; injection Hv as <-; vm_compute; reflexivity. }
  vm_compute. repeat split.
Qed.
(** the third record has no type: it is listed only if its payload is there *)
Example C69_indexing_met :
  let l i := index_line (B "x") (B "None") (fst (nth i tools_sample (mkw [] [] [], []))) in
  indexed (B "x") tools_sample 77 = l 0 /\ indexed (B "x") tools_sample 76 = [] /\
  indexed (B "x") tools_sample (List.length (archive_text tools_sample) - 5) = l 0 ++ l 1 /\
  indexed (B "x") tools_sample (List.length (archive_text tools_sample) - 1) = l 0 ++ l 1 ++ l 2.
Proof. vm_compute. repeat split. Qed.
(** with -T the output ends in a torn record, which warcvalid finds; without an option it does not *)
Example C69_filtered_left_met :
  let cut := 77 + 8200 in let left out := warcvalid plain_id [mkin (B "x.warc") out] in
  cut < List.length (archive_text tools_sample) /\
  left (filtered FType (selected responses FType false) tools_sample cut) = Ret (-1)%Z /\
  left (filtered FAny (selected (fun _ => true) FAny false) tools_sample cut) = Ret 0%Z /\
  left (filtered FAny (selected (fun _ => true) FAny false) tools_sample (start_of tools_sample 1 + 30)) = Ret 0%Z /\
  filtered FAny (selected (fun _ => true) FAny false) tools_sample (start_of tools_sample 1 + 30) <> [].
Proof.
  cbv zeta. split; [apply PeanoNat.Nat.ltb_lt; vm_compute; reflexivity|]. split; [vm_compute; reflexivity|]. split; [vm_compute; reflexivity|]. split; [vm_compute; reflexivity|].
  intro H. apply (f_equal (@List.length N)) in H. vm_compute in H. discriminate.
Qed.
