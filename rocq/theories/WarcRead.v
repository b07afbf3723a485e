(** Reading well-formed WARC text: from the specification to the reader. *)
From Verif Require Export WarcLines WarcSpec.
From Coq Require Import String List.
Open Scope list_scope.

Lemma tidy_trimmed s : tidy s <-> trimmed s.
Proof. split; [intro H; rewrite <- H; apply strip_is_trimmed|apply strip_trimmed]. Qed.

(** ** Header values *)
Definition len_after (n v : bytes) (clen : Z) : Z :=
  if same_nameb n (B "Content-Length") then match py_int 10 v with Some z => z | None => clen end else clen.
Lemma name_rx_trimmed p s : trimmed s -> re_test (RSeq RBol (RSeq (rstr_i p) REol)) s = same_nameb s p.
Proof.
  intro H. rewrite name_rx_test. unfold same_nameb.
  destruct (bytes_eqb (lower s) (lower p ++ [10%N])) eqn:E; [|apply orb_false_r].
  exfalso. apply bytes_eqb_eq in E. destruct (last_case s) as [->|(t & c & ->)]; [destruct (lower p); discriminate|].
  rewrite lower_app in E. cbn [lower map] in E. apply app_inj_tail in E as [_ E].
  destruct H as [_ H]. specialize (H t c eq_refl). rewrite <- is_space_lower, E in H. discriminate.
Qed.
Lemma note_header_eq n v errs clen : trimmed n ->
  note_header n v errs clen = (errs ++ value_errors (n, v), len_after n v clen).
Proof.
  intro H. unfold note_header, type_rx, length_rx. rewrite !name_rx_trimmed by exact H.
  unfold value_errors, len_after. cbn [fst snd].
  change CONTENT_TYPE with (B "Content-Type"). change CONTENT_LENGTH with (B "Content-Length").
  destruct (same_nameb n (B "Content-Type")) eqn:E1.
  - assert (E2 : same_nameb n (B "Content-Length") = false).
    { unfold same_nameb in *. apply bytes_eqb_eq in E1. apply bytes_eqb_neq. rewrite E1. discriminate. }
    rewrite E2. destruct v; [reflexivity|rewrite app_nil_r; reflexivity].
  - destruct (same_nameb n (B "Content-Length")); [|rewrite app_nil_r; reflexivity].
    destruct (py_int 10 v); [rewrite app_nil_r|]; reflexivity.
Qed.
Lemma declared_length_app a b d : declared_length (a ++ b) d = declared_length b (declared_length a d).
Proof. revert d; induction a as [|[n v] a IH]; intro d; [reflexivity|]. cbn [app declared_length]. apply IH. Qed.
Lemma declared_length_cons n v t d : declared_length ((n, v) :: t) d = declared_length t (len_after n v d).
Proof. reflexivity. Qed.

(** ** Line ends *)
Lemma eol_split crlf : exists x, eol crlf = x ++ [10%N] /\ ~ In 10%N x.
Proof. destruct crlf; [exists [13%N]|exists []]; (split; [reflexivity|]); [intros [H|[]]; discriminate|intros []]. Qed.
Lemma chop_eol crlf s : not_cr_end crlf s -> chop (s ++ eol crlf) = Some (s, eol crlf).
Proof. intro H. destruct crlf; [apply chop_crlf|apply chop_lf, H; reflexivity]. Qed.
Lemma lines_of_eol s crlf x : no_lf s -> lines_of (s ++ eol crlf ++ x) = (s ++ eol crlf) :: lines_of x.
Proof.
  intro H. destruct (eol_split crlf) as (e & -> & He). rewrite <- app_assoc, app_assoc. cbn [app].
  rewrite lines_of_lf; [rewrite <- app_assoc; reflexivity|].
  intro Hi. apply in_app_or in Hi as [Hi|Hi]; auto.
Qed.
Lemma one_line_eol s crlf : no_lf s -> one_line (s ++ eol crlf).
Proof.
  intro H. destruct (eol_split crlf) as (e & -> & He). rewrite app_assoc. apply one_line_lf.
  intro Hi. apply in_app_or in Hi as [Hi|Hi]; auto.
Qed.
Lemma eol_space crlf : forallb is_space (eol crlf) = true.
Proof. destruct crlf; reflexivity. Qed.
Lemma eol_ends s crlf : ends_nl (s ++ eol crlf).
Proof. apply ends_nl_app. destruct crlf; [exists [13%N], 10%N|exists [], 10%N]; auto. Qed.
Lemma not_cr_end_tl crlf c s : not_cr_end crlf (c :: s) -> not_cr_end crlf s.
Proof. intros H E t Et. apply (H E (c :: t)). rewrite Et. reflexivity. Qed.

(** ** Entries *)
Definition entry_lines (e : entry) : list bytes := entry_line e :: map cont_text (en_conts e).
Lemma entry_text_lines e : entry_text e = concat (entry_lines e).
Proof. reflexivity. Qed.
Lemma entry_line_no_lf e : entry_ok e -> no_lf (en_name e ++ [COLON] ++ en_raw e).
Proof. intros (H1 & _ & _ & H2 & _) Hi. apply in_app_or in Hi as [Hi|[Hi|Hi]]; [auto|discriminate|auto]. Qed.
Lemma entry_line_eq e : entry_line e = (en_name e ++ [COLON] ++ en_raw e) ++ eol (en_crlf e).
Proof. unfold entry_line. rewrite <- !app_assoc. reflexivity. Qed.
Lemma lines_conts cs x : Forall cont_ok cs ->
  lines_of (concat (map cont_text cs) ++ x) = map cont_text cs ++ lines_of x.
Proof.
  induction cs as [|c cs IH]; intro H; [reflexivity|]. inversion H as [|? ? Hc Hcs]; subst.
  cbn [map concat app]. rewrite <- IH by exact Hcs. unfold cont_text at 1. rewrite <- !app_assoc.
  apply lines_of_eol. apply Hc.
Qed.
Lemma lines_entry e x : entry_ok e -> lines_of (entry_text e ++ x) = entry_lines e ++ lines_of x.
Proof.
  intro H. unfold entry_text, entry_lines. rewrite <- app_assoc, entry_line_eq, <- app_assoc.
  rewrite lines_of_eol by (apply entry_line_no_lf; exact H). rewrite lines_conts by apply H. reflexivity.
Qed.

Lemma entry_line_parts e : entry_ok e -> exists v nl,
  header_parts (entry_line e) = Some (en_name e, v, nl) /\ strip v = strip (en_raw e) /\
  nl_error nl (ErrHeaderNl nl) = (if en_crlf e && negb (bytes_eqb (en_raw e) []) then [] else [ErrHeaderNl [LF]]).
Proof.
  intros (H1 & H2 & H3 & H4 & H5 & _).
  assert (Es : split_once 58 (entry_line e) = Some (en_name e, en_raw e ++ eol (en_crlf e))).
  { unfold entry_line. cbn [app]. apply split_once_hit. exact H2. }
  unfold header_parts. rewrite Es.
  destruct (en_raw e) as [|c r] eqn:Er.
  - destruct (en_crlf e); exists [], [10%N]; auto.
  - assert (Hc : exists v, after_colon ((c :: r) ++ eol (en_crlf e)) = Some (v, eol (en_crlf e)) /\ strip v = strip (c :: r)).
    { cbn [app after_colon]. destruct (is_space c) eqn:Ec.
      - rewrite chop_eol by (apply (not_cr_end_tl _ c); exact H5).
        exists r. split; [reflexivity|]. symmetry. apply strip_cons. exact Ec.
      - exists (c :: r). split; [|reflexivity]. apply (chop_eol (en_crlf e) (c :: r)). exact H5. }
    destruct Hc as (v & -> & Hv). exists v, (eol (en_crlf e)). split; [reflexivity|]. split; [exact Hv|].
    destruct (en_crlf e); reflexivity.
Qed.
Lemma entry_line_head e : entry_ok e -> exists c t, entry_line e = c :: t /\ is_space c = false.
Proof.
  intros (_ & _ & H & _). unfold entry_line. destruct (en_name e) as [|c t]; [exists 58%N; eexists; split; reflexivity|].
  exists c. eexists. split; [reflexivity|]. apply (H c t). reflexivity.
Qed.
Lemma nonspace_head_not_blank c t : is_space c = false -> blank_line (c :: t) = false /\ cont_line (c :: t) = false.
Proof.
  intro H. split.
  - unfold blank_line. destruct (N.eqb_spec c 13) as [->|]; [discriminate|]. destruct (N.eqb_spec c 10) as [->|]; [discriminate|]. reflexivity.
  - unfold cont_line. destruct t as [|a [|b t]]; try reflexivity. rewrite H. reflexivity.
Qed.
Lemma cont_text_ok c : cont_ok c -> cont_line (cont_text c) = true /\ cont_nl (cont_text c) = eol (snd c) /\
  strip (cont_text c) = strip (fst c).
Proof.
  intros (H1 & H2 & (x & t & Ex & Hx) & (y & Hy & Hys)). unfold cont_text. split; [|split].
  - rewrite Ex. cbn [app]. apply cont_line_intro; [exact Hx| |].
    + apply is_crlf_ends; [discriminate|]. apply (eol_ends (x :: t)).
    + assert (Ht : 1 <= length t).
      { destruct t; [|simpl; lia]. rewrite Ex in Hy. destruct Hy as [<-|[]]. congruence. }
      rewrite app_length. destruct (snd c); simpl; lia.
  - unfold cont_nl. rewrite chop_eol by exact H2.
    assert (E : forallb is_space (fst c ++ eol (snd c)) = false).
    { rewrite forallb_app. apply andb_false_iff. left. destruct (forallb is_space (fst c)) eqn:E; [|reflexivity].
      rewrite forallb_forall in E. rewrite (E y Hy) in Hys. discriminate. }
    rewrite E. reflexivity.
  - apply strip_app_r, eol_space.
Qed.
Lemma take_conts cs ls : Forall cont_ok cs -> (match ls with l :: _ => cont_line l = false | [] => True end) ->
  take_cont (map cont_text cs ++ ls) = map cont_text cs /\ drop_cont (map cont_text cs ++ ls) = ls.
Proof.
  intros H Hl. induction cs as [|c cs IH].
  - cbn [map app]. destruct ls as [|l t]; [auto|]. cbn [take_cont drop_cont]. rewrite Hl. auto.
  - inversion H as [|? ? Hc Hcs]; subst. cbn [map app take_cont drop_cont].
    destruct (cont_text_ok c Hc) as [-> _]. destruct (IH Hcs) as [-> ->]. auto.
Qed.
Lemma cont_errs_ok cs : Forall cont_ok cs -> cont_errs (map cont_text cs) =
  concat (map (fun c : bytes * bool => if snd c then [] else [ErrFollowNl (cont_text c) [LF]]) cs).
Proof.
  induction cs as [|c cs IH]; intro H; [reflexivity|]. inversion H as [|? ? Hc Hcs]; subst.
  unfold cont_errs in *. cbn [map concat]. rewrite IH by exact Hcs. f_equal.
  destruct (cont_text_ok c Hc) as (_ & -> & _). destruct (snd c); reflexivity.
Qed.
Lemma map_strip_conts cs : Forall cont_ok cs -> map strip (map cont_text cs) = map (fun c : bytes * bool => strip (fst c)) cs.
Proof.
  induction cs as [|c cs IH]; intro H; [reflexivity|]. inversion H as [|? ? Hc Hcs]; subst. cbn [map].
  rewrite IH by exact Hcs. f_equal. apply cont_text_ok. exact Hc.
Qed.

Lemma hparse_entry e ls hs errs clen : entry_ok e ->
  (match ls with l :: _ => cont_line l = false | [] => True end) ->
  hparse (entry_lines e ++ ls) None hs errs clen =
  match hparse ls None (hs ++ [entry_header e]) (errs ++ entry_errors e)
               (len_after (fst (entry_header e)) (snd (entry_header e)) clen) with
  | Some (r, k) => Some (r, length (entry_text e) + k)
  | None => None
  end.
Proof.
  intros He Hl. unfold entry_lines. cbn [app hparse].
  destruct (entry_line_head e He) as (c & t & Eh & Hc). 
  destruct (nonspace_head_not_blank c t Hc) as [Hb _]. rewrite Eh at 1. rewrite Hb.
  destruct (entry_line_parts e He) as (v & nl & -> & Hv & Hnl).
  rewrite hparse_cont. assert (Hcs : Forall cont_ok (en_conts e)) by apply He.
  destruct (take_conts (en_conts e) ls Hcs Hl) as [-> ->].
  rewrite cont_errs_ok, map_strip_conts, Hv, Hnl by exact Hcs.
  unfold finish. cbn [fst snd].
  rewrite note_header_eq by apply strip_is_trimmed.
  cbn [app]. rewrite <- !app_assoc.
  change ((_ ++ _) ++ value_errors _) with (entry_errors e).
  assert (Ee : (if en_crlf e && negb (bytes_eqb (en_raw e) []) then [] else [ErrHeaderNl [LF]]) ++
      concat (map (fun c0 : bytes * bool => if snd c0 then [] else [ErrFollowNl (cont_text c0) [LF]]) (en_conts e)) ++
      value_errors (strip (en_name e), join [32%N] (strip (en_raw e) :: map (fun c0 : bytes * bool => strip (fst c0)) (en_conts e))) = entry_errors e).
  { unfold entry_errors, entry_nl_errors. rewrite <- app_assoc. reflexivity. }
  rewrite Ee.
  change (strip (en_name e), join [32%N] (strip (en_raw e) :: map (fun c0 : bytes * bool => strip (fst c0)) (en_conts e))) with (entry_header e).
  change (join [32%N] (strip (en_raw e) :: map (fun c0 : bytes * bool => strip (fst c0)) (en_conts e))) with (snd (entry_header e)).
  change (strip (en_name e)) with (fst (entry_header e)).
  destruct (hparse ls None _ _ _) as [[r k]|]; [|reflexivity].
  unfold entry_text. rewrite app_length, Nat.add_assoc. reflexivity.
Qed.

Definition entries_text (es : list entry) : bytes := concat (map entry_text es).
Lemma entries_head es x : Forall entry_ok es -> (match x with l :: _ => cont_line l = false | [] => True end) ->
  match concat (map entry_lines es) ++ x with l :: _ => cont_line l = false | [] => True end.
Proof.
  destruct es as [|e es]; intros H Hx; [exact Hx|]. inversion H; subst. cbn [map concat entry_lines app].
  destruct (entry_line_head e) as (c & t & E & Hc); [assumption|]. rewrite E. apply nonspace_head_not_blank. exact Hc.
Qed.
Lemma hparse_entries es : forall ls hs errs clen, Forall entry_ok es ->
  (match ls with l :: _ => cont_line l = false | [] => True end) ->
  hparse (concat (map entry_lines es) ++ ls) None hs errs clen =
  match hparse ls None (hs ++ map entry_header es) (errs ++ concat (map entry_errors es))
               (declared_length (map entry_header es) clen) with
  | Some (r, k) => Some (r, length (entries_text es) + k)
  | None => None
  end.
Proof.
  induction es as [|e es IH]; intros ls hs errs clen H Hl.
  - cbn [map concat app declared_length]. unfold entries_text. cbn. rewrite !app_nil_r. destruct (hparse ls None hs errs clen) as [[r k]|]; reflexivity.
  - inversion H as [|? ? He Hes]; subst. cbn [map concat]. rewrite <- app_assoc.
    rewrite hparse_entry; [|exact He|apply entries_head; assumption].
    rewrite IH by assumption. rewrite <- !app_assoc. cbn [app].
    destruct (entry_header e) as [n v] eqn:Eh. cbn [declared_length fst snd].
    change (declared_length (map entry_header es) (if same_nameb n (B "Content-Length") then _ else clen))
      with (declared_length (map entry_header es) (len_after n v clen)).
    destruct (hparse ls None _ _ _) as [[r k]|]; [|reflexivity].
    unfold entries_text. cbn [map concat]. rewrite app_length, Nat.add_assoc. reflexivity.
Qed.
Lemma lines_entries es x : Forall entry_ok es ->
  lines_of (entries_text es ++ x) = concat (map entry_lines es) ++ lines_of x.
Proof.
  induction es as [|e es IH]; intro H; [reflexivity|]. inversion H; subst.
  unfold entries_text in *. cbn [map concat]. rewrite <- !app_assoc, lines_entry by assumption. rewrite IH by assumption. reflexivity.
Qed.

(** ** A record with a general header block *)
(** [vline]: any line the reader takes for a version line.  The blank line that
    ends the block may be CR LF or LF, or be missing at the end of the file. *)
Definition block_end (crlf : bool) : bytes := eol crlf.
Lemma blank_eol crlf : blank_line (eol crlf) = true /\ cont_line (eol crlf) = false.
Proof. destruct crlf; split; reflexivity. Qed.
Definition gen_errors (p nl : bytes) (es : list entry) : list perr :=
  nl_error nl (ErrVersionNl nl) ++ (match p with [] => [] | _ => [ErrPrefix p] end) ++ concat (map entry_errors es).
Lemma wparse_general vline p v num nl es crlf x :
  version_parts vline = Some (p, v, num, nl) -> in_list num KNOWN_VERSIONS = true -> Forall entry_ok es ->
  wparse (vline :: lines_of (entries_text es ++ eol crlf ++ x)) =
  WRec (mkrec (RWarc v) (map entry_header es) (gen_errors p nl es) None CF_stream true)
       (declared_length (map entry_header es) 0)
       (length p) (length vline + length (entries_text es) + length (eol crlf)).
Proof.
  intros Hv Hn Hes. unfold wparse. cbn [vfind]. rewrite Hv, Hn.
  rewrite lines_entries by exact Hes.
  assert (El : lines_of (eol crlf ++ x) = eol crlf :: lines_of x) by (apply (lines_of_eol []); intros []).
  rewrite El. destruct (blank_eol crlf) as [Hb Hc].
  rewrite hparse_entries by assumption. cbn [hparse]. rewrite Hb.
  cbn [plus app]. unfold gen_errors. rewrite <- !app_assoc.
  rewrite Nat.add_assoc. reflexivity.
Qed.

Lemma version_known v : In v versions -> exists num,
  version_parts (v ++ CRLF) = Some ([], v, num, CRLF) /\ in_list num KNOWN_VERSIONS = true /\ no_lf v.
Proof.
  intros [<-|[<-|[<-|[]]]]; eexists; (split; [vm_compute; reflexivity|]); (split; [reflexivity|]);
    intro H; simpl in H; repeat (destruct H as [H|H]; [discriminate|]); destruct H.
Qed.

(** canonical headers as entries *)
Definition plain_entry (h : header) : entry := mkentry (fst h) (SP :: snd h) true [].
Lemma plain_entry_ok h : header_ok h -> entry_ok (plain_entry h).
Proof.
  intros [(H1 & H2 & H3) (H4 & H5)]. unfold entry_ok. cbn [plain_entry en_name en_raw en_crlf en_conts].
  split; [exact H1|]. split; [exact H2|]. split; [apply tidy_trimmed in H3; apply H3|].
  split; [intros [E|E]; [discriminate|exact (H4 E)]|]. split; [intro E; discriminate|constructor].
Qed.
Lemma plain_entry_header h : header_ok h -> entry_header (plain_entry h) = h.
Proof.
  intros [(_ & _ & H3) (_ & H5)]. unfold entry_header. cbn [plain_entry en_name en_raw en_conts map join].
  rewrite H3, strip_cons by reflexivity. rewrite H5. destruct h; reflexivity.
Qed.
Lemma plain_entry_text h : entry_text (plain_entry h) = header_text h.
Proof. unfold entry_text, entry_line, header_text. cbn. rewrite app_nil_r. reflexivity. Qed.
Lemma plain_entry_errors h : header_ok h -> header_clean h -> entry_errors (plain_entry h) = [].
Proof.
  intros Ho [H1 H2]. unfold entry_errors. rewrite (plain_entry_header h Ho). unfold entry_nl_errors.
  cbn [plain_entry en_name en_raw en_conts en_crlf map concat app andb negb bytes_eqb].
  unfold value_errors, same_nameb. unfold same_name in *.
  destruct (bytes_eqb (lower (fst h)) (lower (B "Content-Type"))) eqn:E1.
  - apply bytes_eqb_eq in E1. specialize (H1 E1). destruct (snd h); [contradiction|reflexivity].
  - destruct (bytes_eqb (lower (fst h)) (lower (B "Content-Length"))) eqn:E2; [|reflexivity].
    apply bytes_eqb_eq in E2. destruct (H2 E2) as [n ->]. reflexivity.
Qed.
Lemma plain_entries hs : Forall header_ok hs ->
  Forall entry_ok (map plain_entry hs) /\ map entry_header (map plain_entry hs) = hs /\
  entries_text (map plain_entry hs) = concat (map header_text hs).
Proof.
  induction hs as [|h hs IH]; intro H.
  - split; [constructor|]. split; reflexivity.
  - inversion H; subst. destruct IH as (I1 & I2 & I3); [assumption|]. cbn [map]. split; [|split].
    + constructor; [apply plain_entry_ok; assumption|exact I1].
    + rewrite I2, plain_entry_header by assumption. reflexivity.
    + unfold entries_text in *. cbn [map concat]. rewrite I3, plain_entry_text. reflexivity.
Qed.
Lemma plain_entries_errors hs : Forall header_ok hs -> Forall header_clean hs ->
  concat (map entry_errors (map plain_entry hs)) = [].
Proof.
  induction hs as [|h hs IH]; intros H1 H2; [reflexivity|]. inversion H1; inversion H2; subst. cbn [map concat].
  rewrite plain_entry_errors, IH by assumption. reflexivity.
Qed.

(** the record the reader returns *)
Definition parsed_rec (v : bytes) (hs : list header) (errs : list perr) : record :=
  mkrec (RWarc v) hs errs None CF_stream true.
Lemma head_text_eq v hs x : Forall header_ok hs ->
  head_text v hs ++ x = (v ++ CRLF) ++ entries_text (map plain_entry hs) ++ eol true ++ x.
Proof. intro H. unfold head_text. destruct (plain_entries hs H) as (_ & _ & ->). rewrite <- !app_assoc. reflexivity. Qed.
Lemma version_not_crlf v s : In v versions -> crlf_only (v ++ s) = false.
Proof. intros [<-|[<-|[<-|[]]]]; reflexivity. Qed.

(** ** read_record at a well-formed record *)
Lemma set_eoc_adv st n e : set_eoc (adv st n) (Some e) = moved st n e.
Proof. reflexivity. Qed.

(** rewrite with an equation about [wparse], up to bytes = list N *)
Ltac use_wparse W H :=
  match type of W with wparse ?a = _ =>
    match type of H with context [wparse ?c] => change (wparse c) with (wparse a) in H end end;
  rewrite W in H.
Lemma read_head st b v hs x :
  s_eoc st = None -> s_parser st = PWarc -> s_kind st <> SGzipFile ->
  In v versions -> Forall header_ok hs -> rest st = head_text v hs ++ x ->
  read_record st b =
  (Ret (item_offset (s_kind st) b (pos st),
        Some (parsed_rec v hs (concat (map entry_errors (map plain_entry hs)))), []),
   moved st (length (head_text v hs)) (declared_length hs 0)).
Proof.
  intros He Hp Hk Hv Ho Hr. pose proof (read_record_warc st b He Hp Hk) as H. cbn zeta in H.
  destruct (version_known v Hv) as (num & Hvp & Hnum & Hlf).
  assert (El : lines_of (rest st) = (v ++ CRLF) :: lines_of (entries_text (map plain_entry hs) ++ eol true ++ x)).
  { rewrite Hr, head_text_eq by exact Ho. rewrite <- app_assoc. apply (lines_of_eol v true). exact Hlf. }
  rewrite El in H. cbn [after_blank blank_lines] in H. rewrite version_not_crlf in H by exact Hv.
  destruct (plain_entries hs Ho) as (Ho' & Hhs & Ht).
  pose proof (wparse_general _ _ _ _ _ _ true x Hvp Hnum Ho') as W. use_wparse W H. rewrite adv_0 in H.
  rewrite H, Hhs. f_equal.
  - cbn [length]. rewrite Nat.add_0_r, Nat.add_0_r. reflexivity.
  - rewrite set_eoc_adv. f_equal.
    assert (L := f_equal (@List.length _) (head_text_eq v hs [] Ho)).
    rewrite !app_nil_r in L. rewrite L. rewrite !app_length. lia.
Qed.

Lemma read_wrec st b w x :
  s_eoc st = None -> s_parser st = PWarc -> s_kind st <> SGzipFile ->
  wrec_ok w -> rest st = wrec_text w ++ x ->
  let st' := moved st (length (head_text (w_version w) (w_headers w))) (Z.of_nat (length (w_body w))) in
  read_record st b =
  (Ret (item_offset (s_kind st) b (pos st), Some (parsed_rec (w_version w) (w_headers w) []), []), st') /\
  in_payload st' (w_body w) x.
Proof.
  intros He Hp Hk (Hv & Ho & Hc & Hl) Hr. cbn zeta. unfold wrec_text in Hr. rewrite <- app_assoc in Hr.
  split.
  - rewrite (read_head st b _ _ _ He Hp Hk Hv Ho Hr). rewrite plain_entries_errors by assumption. rewrite Hl. reflexivity.
  - split; [reflexivity|]. change (rest (moved st ?n ?e)) with (rest (adv st n)). rewrite rest_adv, Hr.
    rewrite skipn_app, skipn_all, Nat.sub_diag. reflexivity.
Qed.
(** end of archive *)
Lemma read_end st b : s_eoc st = None -> s_parser st = PWarc -> s_kind st <> SGzipFile ->
  rest st = [] -> read_record st b = (Ret (item_offset (s_kind st) b (pos st), None, []), st).
Proof.
  intros He Hp Hk Hr. pose proof (read_record_warc st b He Hp Hk) as H. cbn zeta in H. rewrite Hr in H.
  cbn in H. rewrite H. rewrite !Nat.add_0_r. f_equal. destruct st as [k f e p]. unfold adv, set_fh. cbn. rewrite !f_advance_0. reflexivity.
Qed.
Lemma separator_ok s : sep_ok s <-> separator s.
Proof. reflexivity. Qed.
(** all of a separator and what follows *)
Lemma read_after st b left s x :
  in_payload st left (s ++ x) -> sep_ok s ->
  read_record st b = read_record (fresh (adv st (length left + length s))) b.
Proof.
  intros [He Hr] Hs. rewrite (read_record_skip st b left (s ++ x) He Hr).
  rewrite (read_record_sep _ b s x).
  - f_equal. unfold fresh, adv, set_fh, set_eoc. cbn. rewrite f_advance_advance. reflexivity.
  - reflexivity.
  - change (rest (fresh ?q)) with (rest q). apply rest_adv_app. exact Hr.
  - exact Hs.
Qed.
