(** C08: the outcome of reading a record cut after any number of bytes. *)
From Verif Require Export PropsRead.
From Coq Require Import String List.
Open Scope list_scope.

Lemma no_nl_end s : ~ In 10%N s -> ~ In 13%N s -> ~ ends_nl s.
Proof. intros H1 H2 (t & c & -> & [ -> | -> ]); [apply H2|apply H1]; apply in_or_app; right; left; reflexivity. Qed.
Lemma header_parts_ends l p : header_parts l = Some p -> ends_nl l.
Proof.
  unfold header_parts. intro H. destruct (split_once 58 l) as [[n r]|] eqn:E; [|discriminate].
  apply split_once_some in E as [-> _]. destruct (after_colon r) as [[v nl]|] eqn:Ea; [|discriminate].
  change (58%N :: r) with ([58%N] ++ r). rewrite app_assoc. apply ends_nl_app.
  destruct (list_eq_dec N.eq_dec r []) as [->|Hr]; [discriminate|].
  destruct (last_case r) as [->|(t & c & ->)]; [contradiction|].
  assert (D : (c = 13 \/ c = 10)%N \/ ~ (c = 13 \/ c = 10)%N) by (destruct (N.eq_dec c 13), (N.eq_dec c 10); tauto).
  destruct D as [D|D]; [exists t, c; auto|]. rewrite after_colon_none in Ea; [discriminate|].
  intros (t' & c' & Et & Hc). apply app_inj_tail in Et as [_ <-]. contradiction.
Qed.
Lemma in_firstn {A} (x : A) n l : In x (firstn n l) -> In x l.
Proof. intro H. rewrite <- (firstn_skipn n l). apply in_or_app. left. exact H. Qed.
Lemma firstn_more {A} n (a b : list A) : List.length a <= n -> firstn n (a ++ b) = a ++ firstn (n - List.length a) b.
Proof. intro H. rewrite firstn_app, firstn_all2 by exact H. reflexivity. Qed.
Lemma firstn_less {A} n (a b : list A) : n <= List.length a -> firstn n (a ++ b) = firstn n a.
Proof. intro H. rewrite firstn_app. replace (n - List.length a) with 0 by lia. apply app_nil_r. Qed.

Definition tail_text (hs : list header) (x : bytes) : bytes := concat (map header_text hs) ++ CRLF ++ x.
Definition header_single (h : header) : Prop := header_ok h /\ header_clean h /\ single_line_header h.

Lemma header_text_head h : header_ok h -> exists c t, header_text h = c :: t /\ is_space c = false.
Proof.
  intros [(_ & _ & H) _]. unfold header_text. apply tidy_trimmed in H. destruct (fst h) as [|c t] eqn:E.
  - exists 58%N. eexists. split; reflexivity.
  - exists c. eexists. split; [reflexivity|]. destruct H as [H _]. apply (H c t). reflexivity.
Qed.
(** the line after a header never looks like a continuation *)
Lemma tail_not_cont n hs x : Forall header_ok hs ->
  match lines_of (firstn n (tail_text hs x)) with l :: _ => cont_line l = false | [] => True end.
Proof.
  intro H. destruct n as [|n]; [exact I|]. unfold tail_text. destruct hs as [|h hs]; cbn [map concat app].
  - unfold CRLF. cbn [app firstn]. destruct n as [|n]; [reflexivity|]. cbn [firstn]. reflexivity.
  - inversion H as [|? ? Hh _]; subst. destruct (header_text_head h Hh) as (c & t & -> & Hc). cbn [app firstn].
    match goal with |- match lines_of (c :: ?r) with _ => _ end => generalize r end. intro r.
    cbn [lines_of]. destruct (N.eqb_spec c 10) as [->|Hc10]; [discriminate|].
    destruct (lines_of r); apply nonspace_head_not_blank; exact Hc.
Qed.

Lemma header_text_len h : List.length (header_text h) = List.length (fst h ++ B ": " ++ snd h) + 2.
Proof. unfold header_text, CRLF. rewrite !app_length. cbn. lia. Qed.
Lemma header_text_split h : header_text h = (fst h ++ B ": " ++ snd h) ++ CRLF.
Proof. unfold header_text. rewrite <- !app_assoc. reflexivity. Qed.
Lemma header_no_nl h : header_single h -> ~ In 10%N (fst h ++ B ": " ++ snd h) /\ ~ In 13%N (fst h ++ B ": " ++ snd h).
Proof.
  intros ([(H1 & _) (H2 & _)] & _ & H3 & H4).
  split; intro Hi; apply in_app_or in Hi as [Hi|[Hi|[Hi|Hi]]]; try discriminate; try (apply in_app_or in Hi as [Hi|Hi]); auto;
    try (destruct Hi as [Hi|[Hi|[]]]; discriminate).
Qed.

(** only the LF is missing *)
Lemma header_parts_cr h : header_single h ->
  header_parts ((fst h ++ B ": " ++ snd h) ++ [13%N]) = Some (fst h, snd h, [13%N]).
Proof.
  intros ([(_ & H & _) _] & _). unfold header_parts. rewrite <- app_assoc. change (B ": ") with [58; 32]%N. cbn [app].
  rewrite split_once_hit by exact H. cbn [after_colon]. change (is_space 32) with true. cbn iota. rewrite chop_cr. reflexivity.
Qed.

Definition hcut_ok (body : bytes) (n : nat) (hs done : list header) (errs : list perr) (clen : Z) (r : option (list header * list perr * Z * nat)) : Prop :=
  let total := List.length (concat (map header_text hs)) + 2 in
  match cut_headers n hs done body with
  | CutHang => r = None /\ n < total
  | CutRecord hs' e have => exists more k, hs' = done ++ more /\ r = Some (hs', errs ++ e, declared_length more clen, k) /\
       k = Nat.min n total /\ have = firstn (n - total) body /\ (total <= n -> more = hs) /\ incl more hs
  | _ => False
  end.
Lemma hparse_cut body x : forall hs n done errs clen, Forall header_single hs ->
  hcut_ok body n hs done errs clen (hparse (lines_of (firstn n (tail_text hs x))) None done errs clen).
Proof.
  induction hs as [|h hs IH]; intros n done errs clen H.
  - unfold hcut_ok. cbn [cut_headers]. unfold tail_text. cbn [map concat app List.length plus].
    exists [], (Nat.min n 2). rewrite !app_nil_r. cbn [declared_length]. split; [reflexivity|].
    split; [|split; [reflexivity|split; [reflexivity|split; [reflexivity|apply incl_refl]]]].
    + unfold CRLF. destruct n as [|[|n]]; cbn [app firstn]; [reflexivity|reflexivity|].
      assert (E : lines_of (13%N :: 10%N :: firstn n x) = [13; 10]%N :: lines_of (firstn n x)) by reflexivity.
      rewrite E. replace (Nat.min (S (S n)) 2) with 2 by lia. reflexivity.
  - inversion H as [|? ? Hh Hhs]; subst. pose proof Hh as (Hok & Hcl & Hsl). destruct (header_no_nl h Hh) as [Hlf Hcr].
    assert (Et : tail_text (h :: hs) x = header_text h ++ tail_text hs x).
    { unfold tail_text. cbn [map concat]. rewrite <- app_assoc. reflexivity. }
    unfold hcut_ok. cbn [cut_headers]. rewrite Et.
    destruct (Nat.eqb_spec n 0) as [->|Hn].
    { cbn [firstn lines_of hparse]. exists [], 0. rewrite !app_nil_r. cbn [declared_length]. split; [reflexivity|].
      split; [reflexivity|]. split; [reflexivity|]. split; [reflexivity|]. split; [lia|]. intros ? []. }
    assert (Elen : List.length (concat (map header_text (h :: hs))) = List.length (header_text h) + List.length (concat (map header_text hs)))
      by (cbn [map concat]; apply app_length).
    destruct (header_text_head h Hok) as (c & tl & Eh & Hc).
    assert (Eblank : forall m rest, m <> 0 -> m <= List.length (header_text h) -> blank_line (firstn m (header_text h) ++ rest) = false).
    { intros m rest Hm _. rewrite Eh. destruct m as [|m]; [contradiction|]. cbn [firstn app]. apply nonspace_head_not_blank. exact Hc. }
    destruct (Nat.ltb_spec (n + 1) (List.length (header_text h))) as [Hlt|Hge].
    { (* inside the line *)
      rewrite firstn_less by lia.
      assert (En : firstn n (header_text h) = firstn n (fst h ++ B ": " ++ snd h)).
      { rewrite header_text_split. apply firstn_less. rewrite header_text_len in Hlt. lia. }
      assert (Hno : firstn n (header_text h) <> []) by (rewrite Eh; destruct n; [contradiction|discriminate]).
      rewrite lines_of_eof; [|rewrite En; intro Hi; apply in_firstn in Hi; auto|exact Hno].
      cbn [hparse]. pose proof (Eblank n [] Hn ltac:(lia)) as Hb. rewrite app_nil_r in Hb. rewrite Hb.
      destruct (header_parts (firstn n (header_text h))) as [p|] eqn:Ep; [|split; [reflexivity|lia]]. exfalso.
      apply header_parts_ends in Ep. rewrite En in Ep. revert Ep. apply no_nl_end; intro Hi; apply in_firstn in Hi; auto. }
    destruct (Nat.eqb_spec (n + 1) (List.length (header_text h))) as [Heq|Hne].
    { (* only LF missing *)
      rewrite firstn_less by lia.
      assert (En : firstn n (header_text h) = (fst h ++ B ": " ++ snd h) ++ [13%N]).
      { rewrite header_text_split. rewrite header_text_len in Heq. rewrite firstn_more by lia.
        replace (n - List.length (fst h ++ B ": " ++ snd h)) with 1 by lia. reflexivity. }
      rewrite En, lines_of_eof.
      2:{ intro Hi. apply in_app_or in Hi as [Hi|[Hi|[]]]; [auto|discriminate]. }
      2:{ intro E. apply app_eq_nil in E as [_ E]. discriminate. }
      cbn [hparse]. pose proof (Eblank n [] Hn ltac:(lia)) as Hb. rewrite app_nil_r, En in Hb. rewrite Hb.
      rewrite header_parts_cr by exact Hh. unfold finish. cbn [fst snd join].
      destruct Hok as [(_ & _ & Hnt) (_ & Hvt)]. rewrite Hnt, Hvt. rewrite note_header_eq by (apply tidy_trimmed; exact Hnt).
      assert (Hve : value_errors (fst h, snd h) = []).
      { pose proof (plain_entry_errors h (proj1 Hh) Hcl) as Hpe. unfold entry_errors in Hpe. rewrite plain_entry_header in Hpe by apply Hh.
        apply app_eq_nil in Hpe as [_ Hpe]. destruct h; exact Hpe. }
      rewrite Hve, app_nil_r. destruct h as [hn hv]. exists [(hn, hv)]. eexists. split; [reflexivity|]. cbn [fst snd] in *.
      split; [rewrite declared_length_cons; reflexivity|]. rewrite header_text_len in Heq. cbn [fst snd] in Heq.
      set (q := hn ++ B ": " ++ hv) in *. rewrite Elen, header_text_len. cbn [fst snd]. fold q. rewrite app_length. cbn [List.length].
      split; [lia|]. split; [replace (n - _) with 0 by lia; reflexivity|]. split; [lia|]. intros y [<-|[]]. left. reflexivity. }
    (* the whole line is there *)
    assert (Hge' : List.length (header_text h) <= n) by lia.
    rewrite firstn_more by exact Hge'.
    rewrite <- (plain_entry_text h). rewrite lines_entry by (apply plain_entry_ok; exact Hok).
    rewrite hparse_entry; [|apply plain_entry_ok; exact Hok|].
    2:{ apply tail_not_cont. apply Forall_forall. intros h' Hi. rewrite Forall_forall in Hhs. apply Hhs. exact Hi. }
    rewrite plain_entry_header by exact Hok. rewrite (plain_entry_errors h Hok Hcl), app_nil_r.
    specialize (IH (n - List.length (header_text h)) (done ++ [h]) errs (len_after (fst h) (snd h) clen) Hhs).
    unfold hcut_ok in IH. rewrite (plain_entry_text h).
    destruct (cut_headers (n - List.length (header_text h)) hs (done ++ [h]) body) as [|got| |hs' e have]; [destruct IH|destruct IH| |].
    + destruct IH as [IH IH2]. rewrite IH. split; [reflexivity|]. rewrite Elen. lia.
    + destruct IH as (more & k & E1 & E2 & E3 & E4 & E5 & E6). rewrite E2. exists (h :: more), (List.length (header_text h) + k).
      split; [rewrite E1, <- app_assoc; reflexivity|]. split; [destruct h; reflexivity|].
      rewrite Elen. split; [lia|]. split; [rewrite E4; f_equal; lia|]. split; [intro Hk; rewrite E5 by lia; reflexivity|].
      intros y [<-|Hy]; [left; reflexivity|right; apply E6; exact Hy].
Qed.

(** Content-Length values are natural numbers *)
Definition length_natural (h : header) : Prop :=
  same_name (fst h) (B "Content-Length") -> exists n : nat, py_int 10 (snd h) = Some (Z.of_nat n).
Lemma declared_natural hs : forall d : nat, Forall length_natural hs -> exists n : nat, declared_length hs (Z.of_nat d) = Z.of_nat n.
Proof.
  induction hs as [|[k v] hs IH]; intros d H; [eexists; reflexivity|]. inversion H as [|? ? Hh Hhs]; subst.
  cbn [declared_length]. unfold length_natural, same_name in Hh. cbn [fst snd] in Hh. unfold same_nameb.
  destruct (bytes_eqb (lower k) (lower (B "Content-Length"))) eqn:E; [|apply IH; exact Hhs].
  apply bytes_eqb_eq in E. destruct (Hh E) as [m ->]. apply IH. exact Hhs.
Qed.
Lemma short_read st e : s_eoc st = Some (Z.of_nat e) -> List.length (rest st) <= e -> fst (stream_read st None) = Ret (rest st).
Proof.
  intros He Hr. unfold stream_read, bounded. rewrite He. cbn [raw_read]. unfold f_read.
  assert (Hneg : (Z.of_nat e <? 0)%Z = false) by lia. rewrite Hneg, Nat2Z.id. cbn [fst].
  change (f_rest (s_fh st)) with (rest st). rewrite firstn_all2 by exact Hr. reflexivity.
Qed.
Lemma end_after st n : s_eoc st = None -> s_parser st = PWarc -> s_kind st = SPlain -> rest st = firstn n terminator ->
  fst (read_record st true) = Ret (Some (pos st + List.length (rest st)), None, []).
Proof.
  intros He Hp Hk Hr. pose proof (read_record_warc st true He Hp) as H. rewrite Hk in H. specialize (H ltac:(discriminate)). cbn zeta in H.
  assert (G : after_blank (lines_of (firstn n terminator)) = [] /\ blank_lines (lines_of (firstn n terminator)) = List.length (firstn n terminator)).
  { destruct n as [|[|[|[|n]]]]; try (split; reflexivity).
    replace (firstn (S (S (S (S n)))) terminator) with terminator by (cbn; destruct n; reflexivity). split; reflexivity. }
  destruct G as [G1 G2]. rewrite Hr, G1, G2 in H. cbn [wparse vfind] in H. unfold wparse in H. cbn [vfind] in H.
  rewrite H, Hr. cbn [fst item_offset]. rewrite Nat.add_0_r. reflexivity.
Qed.

Theorem C08_cut_anywhere : forall (w : wrec) (n : nat) (st : stream),
  wrec_ok w -> Forall single_line_header (w_headers w) -> Forall length_natural (w_headers w) ->
  opened_on (firstn n (wrec_text w ++ terminator)) st ->
  match cut_result w n with
  | CutNothing => fst (read_record st true) = Ret (Some 0, None, [])
  | CutVersion got => fst (read_record st true) = Ret (Some (List.length got), None, [ErrIgnored got])
  | CutHang => fst (read_record st true) = Diverge
  | CutRecord hs errs have =>
      exists st1, read_record st true =
        (Ret (Some 0, Some (mkrec (RWarc (w_version w)) hs errs None CF_stream true), []), st1) /\
      fst (stream_read st1 None) = Ret have /\
      (Z.of_nat (List.length have) <= declared_length hs 0)%Z /\
      ((Z.of_nat (List.length have) < declared_length hs 0)%Z ->
         fst (read_record st1 true) = Raise E_short) /\
      (Z.of_nat (List.length have) = declared_length hs 0 ->
         fst (read_record st1 true) =
         Ret (Some (List.length (firstn n (wrec_text w ++ terminator))), None, []))
  end.
Proof.
  intros w n st Hw Hsl Hnat [strict Est]. pose proof Hw as (Hv & Ho & Hc & Hl).
  set (text := firstn n (wrec_text w ++ terminator)) in *.
  assert (Hrest : rest st = text) by (subst st; reflexivity).
  assert (Hpos : pos st = 0) by (subst st; reflexivity).
  assert (He : s_eoc st = None) by (subst st; reflexivity). assert (Hp : s_parser st = PWarc) by (subst st; reflexivity).
  assert (Hk : s_kind st = SPlain) by (subst st; reflexivity).
  pose proof (read_record_warc st true He Hp) as H. rewrite Hk, Hpos, Hrest in H. specialize (H ltac:(discriminate)). cbn zeta in H.
  assert (Hsing : Forall header_single (w_headers w)).
  { rewrite Forall_forall in *. intros h Hi. split; [|split]; auto. }
  assert (Etext : wrec_text w ++ terminator = (w_version w ++ CRLF) ++ tail_text (w_headers w) (w_body w ++ terminator)).
  { unfold wrec_text, head_text, tail_text. rewrite <- !app_assoc. reflexivity. }
  destruct (version_known _ Hv) as (num & Hvp & Hnum & Hvlf).
  assert (Hvne : exists c t, w_version w = c :: t /\ is_space c = false).
  { destruct Hv as [<-|[<-|[<-|[]]]]; eexists; eexists; split; reflexivity. }
  destruct Hvne as (vc & vt & Ev & Hvc).
  assert (Hvc' : N.eqb vc 13 = false /\ N.eqb vc 10 = false).
  { split; apply N.eqb_neq; intro E; rewrite E in Hvc; discriminate. }
  assert (Hcrlf : forall t, crlf_only (vc :: t) = false).
  { intro t. unfold crlf_only. cbn. unfold is_crlf. destruct Hvc' as [-> ->]. reflexivity. }
  unfold cut_result.
  destruct (Nat.eqb_spec n 0) as [Hn0|Hn0].
  { subst n. unfold text in H. cbn in H. rewrite H. reflexivity. }
  destruct (Nat.leb_spec n (List.length (w_version w))) as [Hnv|Hnv].
  { assert (Et : text = firstn n (w_version w)).
    { unfold text. rewrite Etext, <- app_assoc. apply firstn_less. exact Hnv. }
    rewrite Et in H. set (got := firstn n (w_version w)) in *.
    assert (Egot : exists t, got = vc :: t) by (unfold got; rewrite Ev; destruct n; [contradiction|eexists; reflexivity]).
    destruct Egot as [t Egot].
    rewrite lines_of_eof in H; [|unfold got; intro Hi; apply in_firstn in Hi; auto|rewrite Egot; discriminate].
    cbn [after_blank blank_lines] in H. rewrite Egot, Hcrlf in H. rewrite <- Egot in H.
    unfold wparse in H. cbn [vfind] in H.
    assert (Enone : version_parts got = None).
    { destruct (version_parts got) as [p|] eqn:E; [|reflexivity]. exfalso. apply version_parts_ends in E. revert E.
      apply no_nl_end; unfold got; intro Hi; apply in_firstn in Hi; [auto|].
      destruct Hv as [E|[E|[E|[]]]]; rewrite <- E in Hi; cbn in Hi; repeat (destruct Hi as [Hi|Hi]; [discriminate|]); destruct Hi. }
    rewrite Enone in H. assert (Ebl : blank_line got = false) by (rewrite Egot; apply nonspace_head_not_blank; exact Hvc).
    rewrite Ebl in H. cbn [app List.length] in H. change (Nat.ltb bad_lines 1) with false in H. cbn iota in H.
    rewrite H. cbn [fst item_offset]. do 4 f_equal. lia. }
  destruct (Nat.eqb_spec n (List.length (w_version w) + 1)) as [Hn1|Hn1].
  { assert (Et : text = w_version w ++ [13%N]).
    { unfold text. rewrite Etext, <- app_assoc, firstn_more by lia. replace (n - List.length (w_version w)) with 1 by lia. reflexivity. }
    rewrite Et in H. rewrite Et.
    rewrite lines_of_eof in H; [|intro Hi; apply in_app_or in Hi as [Hi|[Hi|[]]]; [auto|discriminate]|rewrite Ev; discriminate].
    cbn [after_blank blank_lines] in H. assert (Ecr : crlf_only (w_version w ++ [13%N]) = false) by (rewrite Ev; apply Hcrlf). rewrite Ecr in H.
    unfold wparse in H. cbn [vfind] in H.
    assert (Evp : exists num', version_parts (w_version w ++ [13%N]) = Some ([], w_version w, num', [13%N]) /\ in_list num' KNOWN_VERSIONS = true).
    { destruct Hv as [<-|[<-|[<-|[]]]]; eexists; (split; [vm_compute; reflexivity|reflexivity]). }
    destruct Evp as (num' & Evp & Hnum'). rewrite Evp, Hnum' in H. cbn [hparse app List.length] in H. cbn [plus] in H.
    rewrite adv_0 in H. eexists. split; [exact H|].
    assert (Hr1 : forall e, rest (set_eoc (adv st (List.length (w_version w ++ [13%N]) + 0)) e) = []).
    { intro e. change (rest (set_eoc ?q e)) with (rest q). rewrite rest_adv, Hrest, Et, Nat.add_0_r. apply skipn_all. }
    split; [rewrite (short_read _ 0); [rewrite Hr1; reflexivity|reflexivity|rewrite Hr1; cbn; lia]|].
    cbn [declared_length]. cbn [List.length]. split; [lia|]. split; [lia|]. intros _.
    match goal with |- context [read_record ?s _] => set (s1 := s) end.
    rewrite (read_record_skip s1 true [] []); [|reflexivity|unfold s1; apply Hr1].
    rewrite (end_after _ 0); [|reflexivity|exact Hp|exact Hk|].
    - cbn [List.length]. rewrite adv_0. do 4 f_equal. change (rest (fresh s1)) with (rest s1). unfold s1. rewrite Hr1.
      change (pos (fresh (set_eoc ?q _))) with (pos q). rewrite pos_adv. cbn [List.length]. lia.
    - cbn [List.length firstn]. rewrite adv_0. unfold s1. apply Hr1. }
  set (m := n - (List.length (w_version w) + 2)) in *.
  assert (Et : text = (w_version w ++ CRLF) ++ firstn m (tail_text (w_headers w) (w_body w ++ terminator))).
  { unfold text. rewrite Etext, firstn_more by (rewrite app_length; cbn; lia). rewrite app_length. reflexivity. }
  rewrite Et in H. rewrite <- app_assoc in H.
  pose proof (lines_of_eol (w_version w) true (firstn m (tail_text (w_headers w) (w_body w ++ terminator))) Hvlf) as El.
  cbn [eol] in El. rewrite El in H. cbn [after_blank blank_lines] in H. rewrite version_not_crlf in H by exact Hv.
  unfold wparse in H. cbn [vfind] in H.
  match type of H with context [version_parts ?z] => change (version_parts z) with (version_parts (w_version w ++ CRLF)) in H end.
  rewrite Hvp, Hnum in H. cbn [app] in H.
  pose proof (hparse_cut (w_body w) (w_body w ++ terminator) (w_headers w) m [] [] 0%Z Hsing) as HC. unfold hcut_ok in HC. cbn zeta in HC.
  change (nl_error CRLF (ErrVersionNl CRLF)) with (@nil perr) in H. cbn [app] in H.
  destruct (cut_headers m (w_headers w) [] (w_body w)) as [|got| |hs' e have] eqn:Ecut; [destruct HC|destruct HC| |].
  - destruct HC as [HC _].
    match type of H with context [hparse ?z None [] [] 0%Z] => change (hparse z None [] [] 0%Z) with (hparse (lines_of (firstn m (tail_text (w_headers w) (w_body w ++ terminator)))) None [] [] 0%Z) in H end.
    rewrite HC in H. exact H.
  - destruct HC as (more & k & E1 & E2 & E3 & E4 & E5 & E6). cbn [app] in E1, E2. subst more.
    match type of H with context [hparse ?z None [] [] 0%Z] => change (hparse z None [] [] 0%Z) with (hparse (lines_of (firstn m (tail_text (w_headers w) (w_body w ++ terminator)))) None [] [] 0%Z) in H end.
    rewrite E2 in H. cbn [List.length plus] in H. rewrite adv_0 in H.
    set (total := List.length (concat (map header_text (w_headers w))) + 2) in *.
    set (K := List.length (w_version w ++ CRLF) + k) in *.
    destruct (declared_natural hs' 0) as [d Hd].
    { rewrite Forall_forall in *. intros h Hi. apply Hnat. apply E6. exact Hi. }
    change (Z.of_nat 0) with 0%Z in Hd. rewrite Hd in *.
    set (st1 := set_eoc (adv st K) (Some (Z.of_nat d))) in *.
    assert (Hhead : tail_text (w_headers w) (w_body w ++ terminator) = (concat (map header_text (w_headers w)) ++ CRLF) ++ w_body w ++ terminator)
      by (unfold tail_text; rewrite <- app_assoc; reflexivity).
    assert (Htot : List.length (concat (map header_text (w_headers w)) ++ CRLF) = total) by (rewrite app_length; reflexivity).
    assert (Hr1 : rest st1 = firstn (m - total) (w_body w ++ terminator)).
    { unfold st1. change (rest (set_eoc ?q _)) with (rest q). rewrite rest_adv, Hrest, Et. unfold K.
      rewrite <- skipn_skipn', skipn_app, skipn_all, Nat.sub_diag. cbn [skipn app]. rewrite E3.
      destruct (Nat.le_gt_cases total m) as [Hm|Hm].
      - rewrite Nat.min_r by exact Hm. rewrite Hhead, firstn_more by (rewrite Htot; exact Hm). rewrite Htot.
        rewrite <- Htot at 1. rewrite skipn_app, skipn_all, Nat.sub_diag. reflexivity.
      - rewrite Nat.min_l by lia. replace (m - total) with 0 by lia. cbn [firstn].
        apply length_zero_iff_nil. rewrite skipn_length, firstn_length. lia. }
    assert (Hlen : List.length text = K + List.length (rest st1)).
    { unfold st1. change (rest (set_eoc ?q _)) with (rest q). rewrite rest_adv, Hrest, skipn_length.
      assert (K <= List.length text); [|lia]. rewrite Et, app_length. unfold K. rewrite E3.
      assert (Nat.min m total <= List.length (firstn m (tail_text (w_headers w) (w_body w ++ terminator)))); [|lia].
      rewrite firstn_length, Hhead, app_length, Htot. lia. }
    exists st1. split; [exact H|].
    assert (Hcase : (d = List.length (w_body w) /\ total <= m) \/ m < total).
    { destruct (Nat.le_gt_cases total m) as [Hm|Hm]; [left|right; exact Hm]. split; [|exact Hm].
      rewrite (E5 Hm), Hl in Hd. lia. }
    destruct (Nat.le_gt_cases (List.length (w_body w)) (m - total)) as [Hfull|Hpart].
    + assert (Hhave : have = w_body w) by (rewrite E4; apply firstn_all2; exact Hfull).
      assert (Hd' : d = List.length (w_body w) \/ (m < total /\ w_body w = [])).
      { destruct Hcase as [[Hc1 _]|Hc1]; [left; exact Hc1|right]. split; [exact Hc1|]. apply length_zero_iff_nil. lia. }
      destruct Hd' as [Hd'|[Hm Hb]].
      * assert (Hin : in_payload st1 (w_body w) (firstn (m - total - List.length (w_body w)) terminator)).
        { split; [cbn; rewrite Hd'; reflexivity|]. rewrite Hr1, firstn_more by exact Hfull. reflexivity. }
        split; [rewrite (read_rest _ _ _ Hin), Hhave; reflexivity|]. rewrite Hhave, Hd'. split; [lia|]. split; [lia|]. intros _.
        destruct Hin as [Hin1 Hin2]. rewrite (read_record_skip _ _ _ _ Hin1 Hin2).
        assert (Hrr : rest (fresh (adv st1 (List.length (w_body w)))) = firstn (m - total - List.length (w_body w)) terminator).
        { change (rest (fresh ?q)) with (rest q). apply rest_adv_app. exact Hin2. }
        rewrite (end_after _ (m - total - List.length (w_body w))); [|reflexivity|exact Hp|exact Hk|exact Hrr].
        do 4 f_equal. rewrite Hrr, Hlen, Hin2, app_length.
        change (pos (fresh (adv st1 ?q))) with (pos st + K + q). rewrite Hpos. lia.
      * rewrite Hb in Hhave. rewrite Hhave in *. cbn [List.length] in *.
        assert (Hr0 : rest st1 = []) by (rewrite Hr1; replace (m - total) with 0 by lia; reflexivity).
        split; [rewrite (short_read st1 d); [rewrite Hr0; reflexivity|reflexivity|rewrite Hr0; cbn; lia]|].
        split; [lia|]. split.
        { intro Hlt. destruct (read_record_short st1 true d) as [s4 E]; [reflexivity|rewrite Hr0; cbn; lia|]. rewrite E. reflexivity. }
        intro Hz. assert (d = 0) by lia. subst d.
        rewrite (read_record_skip st1 true [] []); [|reflexivity|exact Hr0].
        rewrite (end_after _ 0); [|reflexivity|exact Hp|exact Hk|].
        -- cbn [List.length]. rewrite adv_0. do 4 f_equal. change (rest (fresh st1)) with (rest st1). rewrite Hlen, Hr0.
           change (pos (fresh st1)) with (pos st + K). rewrite Hpos. reflexivity.
        -- cbn [List.length firstn]. rewrite adv_0. exact Hr0.
    + assert (Hr2 : rest st1 = have) by (rewrite Hr1, E4; apply firstn_less; lia).
      assert (Hle : List.length have <= d).
      { destruct Hcase as [[Hc1 _]|Hc1]; [rewrite E4, firstn_length; lia|]. rewrite E4. replace (m - total) with 0 by lia. cbn. lia. }
      split; [rewrite (short_read st1 d); [rewrite Hr2; reflexivity|reflexivity|rewrite Hr2; exact Hle]|].
      split; [lia|]. split.
      { intro Hlt. destruct (read_record_short st1 true d) as [s4 E]; [reflexivity|rewrite Hr2; lia|]. rewrite E. reflexivity. }
      intro Hz. assert (Hd2 : d = List.length have) by lia.
      assert (Hin : in_payload st1 have []) by (split; [cbn; rewrite Hd2; reflexivity|rewrite app_nil_r; exact Hr2]).
      destruct Hin as [Hin1 Hin2]. rewrite (read_record_skip _ _ _ _ Hin1 Hin2).
      assert (Hrr : rest (fresh (adv st1 (List.length have))) = []).
      { change (rest (fresh ?q)) with (rest q). apply rest_adv_app. exact Hin2. }
      rewrite (end_after _ 0); [|reflexivity|exact Hp|exact Hk|exact Hrr].
      do 4 f_equal. rewrite Hrr, Hlen, Hr2. change (pos (fresh (adv st1 ?q))) with (pos st + K + q). rewrite Hpos. cbn [List.length]. lia.
Qed.

Lemma cut_headers_skip hs1 : forall k done hs2 body, 
  cut_headers (List.length (concat (map header_text hs1)) + k) (hs1 ++ hs2) done body = cut_headers k hs2 (done ++ hs1) body.
Proof.
  induction hs1 as [|h hs1 IH]; intros k done hs2 body; [rewrite app_nil_r; reflexivity|].
  cbn [map concat app cut_headers]. rewrite app_length.
  pose proof (header_text_len h) as L.
  destruct (Nat.eqb_spec (List.length (header_text h) + List.length (concat (map header_text hs1)) + k) 0); [lia|].
  destruct (Nat.ltb_spec (List.length (header_text h) + List.length (concat (map header_text hs1)) + k + 1) (List.length (header_text h))); [lia|].
  destruct (Nat.eqb_spec (List.length (header_text h) + List.length (concat (map header_text hs1)) + k + 1) (List.length (header_text h))); [lia|].
  replace (List.length (header_text h) + List.length (concat (map header_text hs1)) + k - List.length (header_text h))
    with (List.length (concat (map header_text hs1)) + k) by lia.
  rewrite IH, <- app_assoc. reflexivity.
Qed.
Definition header_position (w : wrec) (hs1 : list header) : nat :=
  List.length (w_version w ++ CRLF ++ concat (map header_text hs1)).
Lemma cut_at w hs1 hs2 k : w_headers w = hs1 ++ hs2 -> 
  cut_result w (header_position w hs1 + k) = cut_headers k hs2 hs1 (w_body w).
Proof.
  intros E. unfold cut_result, header_position. rewrite !app_length. cbn [CRLF List.length].
  set (v := List.length (w_version w)). set (c := List.length (concat (map header_text hs1))).
  destruct (Nat.eqb_spec (v + (2 + c) + k) 0); [lia|]. destruct (Nat.leb_spec (v + (2 + c) + k) v); [lia|].
  destruct (Nat.eqb_spec (v + (2 + c) + k) (v + 1)); [lia|].
  replace (v + (2 + c) + k - (v + 2)) with (c + k) by lia. rewrite E. apply (cut_headers_skip hs1 k []).
Qed.
(** cut between two header lines before the length is known: accepted silently *)
Theorem C08_cut_between_headers_is_silent : forall (w : wrec) (hs1 : list header) (h : header) (hs2 : list header) (st : stream),
  wrec_ok w -> Forall single_line_header (w_headers w) -> Forall length_natural (w_headers w) ->
  w_headers w = hs1 ++ h :: hs2 -> Forall (fun x => ~ same_name (fst x) (B "Content-Length")) hs1 ->
  opened_on (firstn (header_position w hs1) (wrec_text w ++ terminator)) st ->
  exists st1, read_record st true = (Ret (Some 0, Some (mkrec (RWarc (w_version w)) hs1 [] None CF_stream true), []), st1) /\
    fst (stream_read st1 None) = Ret [] /\
    exists off, fst (read_record st1 true) = Ret (off, None, []).
Proof.
  intros w hs1 h hs2 st Hw Hs Hn E Hno Ho. rewrite <- (Nat.add_0_r (header_position w hs1)) in Ho.
  pose proof (C08_cut_anywhere w _ st Hw Hs Hn Ho) as H. rewrite (cut_at w hs1 (h :: hs2) 0 E) in H. cbn [cut_headers Nat.eqb] in H.
  destruct H as (st1 & H1 & H2 & _ & _ & H3). exists st1. split; [exact H1|]. split; [exact H2|]. eexists. apply H3.
  cbn [List.length Z.of_nat]. clear - Hno. induction hs1 as [|[k v] hs1 IH]; [reflexivity|].
  inversion Hno as [|? ? Hk Hks]; subst. cbn [declared_length]. unfold same_nameb, same_name in *. cbn [fst] in Hk.
  apply bytes_eqb_neq in Hk. rewrite Hk. apply IH. exact Hks.
Qed.
(** cut inside a header line: the reader never returns *)
Theorem C08_cut_inside_header_hangs : forall (w : wrec) (hs1 : list header) (h : header) (hs2 : list header) (k : nat) (st : stream),
  wrec_ok w -> Forall single_line_header (w_headers w) -> Forall length_natural (w_headers w) ->
  w_headers w = hs1 ++ h :: hs2 -> 0 < k -> k + 2 <= List.length (header_text h) ->
  opened_on (firstn (header_position w hs1 + k) (wrec_text w ++ terminator)) st ->
  fst (read_record st true) = Diverge.
Proof.
  intros w hs1 h hs2 k st Hw Hs Hn E Hk Hk2 Ho.
  pose proof (C08_cut_anywhere w _ st Hw Hs Hn Ho) as H. rewrite (cut_at w hs1 (h :: hs2) k E) in H. cbn [cut_headers] in H.
  destruct (Nat.eqb_spec k 0); [lia|]. destruct (Nat.ltb_spec (k + 1) (List.length (header_text h))); [exact H|lia].
Qed.
Definition cut_sample : wrec := mkw (B "WARC/1.0") [(B "WARC-Type", B "response"); (B "Content-Length", B "4")] (B "body").
Example C08_hypotheses_met : wrec_ok cut_sample /\ Forall single_line_header (w_headers cut_sample) /\ Forall length_natural (w_headers cut_sample).
Proof.
  split; [apply wrec_okb_sound; vm_compute; reflexivity|]. split.
  - repeat constructor; apply (no_byteb_sound 13); reflexivity.
  - repeat constructor; intro E; [discriminate E|]. exists 4. vm_compute. reflexivity.
Qed.
(** all five outcomes occur, at each byte position *)
Example C08_outcomes : map (fun n => match cut_result cut_sample n with
    | CutNothing => 0 | CutVersion _ => 1 | CutHang => 2 | CutRecord hs e b => 100 * List.length hs + 10 * List.length e + List.length b + 1000 end)
  [0; 1; 8; 9; 10; 11; 30; 31; 32; 33; 48; 49; 50; 51; 52; 53; 56; 57; 60] =
  [0; 1; 1; 1010; 1000; 2; 1110; 1100; 2; 2; 2; 1210; 1200; 1200; 1200; 1201; 1204; 1204; 1204].
Proof. vm_compute. reflexivity. Qed.
