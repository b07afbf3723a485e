(** C77: what the ARC reader makes of any text whatsoever. *)
From Verif Require Export PropsReading PropsArc.
From Coq Require Import String List Lia ZArith.
Open Scope list_scope.

(** ** Specification: the fields of a header line *)
(** the byte at a place; a zero byte - neither white space nor part of a word - behind the end *)
Definition byte_at (line : bytes) (i : nat) : N := nth i line 0%N.
(** a white-space byte separates two fields if a letter, digit or underscore stands next to it *)
Definition separates (line : bytes) (i : nat) : bool :=
  is_space (byte_at line i) && (match i with O => false | S j => is_word (byte_at line j) end || is_word (byte_at line (S i))).
Definition separators (line : bytes) : list nat := filter (separates line) (seq 0 (List.length line)).
(** the line without the bytes at the places [ps] *)
Fixpoint cut_at (line : bytes) (start : nat) (ps : list nat) : list bytes :=
  match ps with
  | [] => [skipn start line]
  | p :: ps' => firstn (p - start) (skipn start line) :: cut_at line (S p) ps'
  end.
(** the values for the names: if there are too many separators the last ones count when the first name is URL or
    Content-type, and the first ones otherwise - but with one name there must be no separator *)
Definition arc_fields (names : list bytes) (line : bytes) : outcome (list bytes) :=
  let ps := separators line in
  if Nat.eqb (List.length names) (S (List.length ps)) then Ret (cut_at line 0 ps)
  else match names with
       | [] => Raise EIndexError
       | n :: ns =>
           if Nat.ltb (List.length ps) (List.length ns) || Nat.eqb (List.length ns) 0 then Raise ETypeError
           else if bytes_eqb n (B "URL") || bytes_eqb n (B "Content-type")
           then Ret (cut_at line 0 (skipn (List.length ps - List.length ns) ps))
           else Ret (cut_at line 0 (firstn (List.length ns) ps))
       end.

(** ** Lemmas: splitting *)
Inductive cuts : nat -> bytes -> list nat -> list bytes -> Prop :=
| cuts_one o v : cuts o v [] [v]
| cuts_more o v c s ps vs : cuts (o + List.length v + 1) s ps vs -> cuts o (v ++ c :: s) (o + List.length v :: ps) (v :: vs).
Lemma cuts_cut o s ps vs : cuts o s ps vs -> forall pre, List.length pre = o -> cut_at (pre ++ s) o ps = vs.
Proof.
  induction 1 as [o v|o v c s ps vs H IH]; intros pre Hp; cbn [cut_at].
  - rewrite skipn_app, <- Hp, skipn_all, Nat.sub_diag. reflexivity.
  - rewrite skipn_app, <- Hp, skipn_all, Nat.sub_diag. cbn [app skipn]. f_equal.
    + replace (List.length pre + List.length v - List.length pre) with (List.length v) by lia. rewrite firstn_app, firstn_all, Nat.sub_diag, firstn_O, app_nil_r. reflexivity.
    + specialize (IH (pre ++ v ++ [c])). rewrite <- !app_assoc in IH. cbn [app] in IH.
      replace (o + List.length v + 1) with (S (List.length pre + List.length v)) in IH by lia. apply IH. rewrite !app_length. cbn. lia.
Qed.
Lemma cuts_snoc o s ps vs c v : cuts o s ps vs -> cuts o (s ++ c :: v) (ps ++ [o + List.length s]) (vs ++ [v]).
Proof.
  induction 1 as [o w|o w d s ps vs H IH]; cbn [app].
  - apply cuts_more. constructor.
  - rewrite <- app_assoc. cbn [app]. apply cuts_more. replace (o + List.length (w ++ d :: s)) with (o + List.length w + 1 + List.length s) by (rewrite app_length; cbn; lia). exact IH.
Qed.
Lemma cuts_rev o s ps vs : cuts o s ps vs ->
  cuts 0 (rev s) (map (fun p => o + List.length s - 1 - p) (rev ps)) (map (@rev N) (rev vs)).
Proof.
  induction 1 as [o v|o v c s ps vs H IH]; [constructor|].
  rewrite rev_app_distr. cbn [rev]. rewrite <- app_assoc. cbn [app]. rewrite !map_app. cbn [map].
  assert (E : [o + List.length (v ++ c :: s) - 1 - (o + List.length v)] = [0 + List.length (rev s)]) by (f_equal; rewrite app_length, rev_length; cbn; lia).
  rewrite E. apply cuts_snoc. replace (o + List.length (v ++ c :: s) - 1) with (o + List.length v + 1 + List.length s - 1) by (rewrite app_length; cbn; lia). exact IH.
Qed.
Definition take_max {A} (m : option nat) (l : list A) : list A := match m with None => l | Some k => firstn k l end.
Lemma sep_here (pre : bytes) c t : separates (rev pre ++ c :: t) (List.length pre) = is_space c && (word_at pre || word_at t).
Proof.
  unfold separates, byte_at. rewrite app_nth2 by (rewrite rev_length; lia). rewrite rev_length, Nat.sub_diag. cbn [nth]. f_equal. f_equal.
  - destruct pre as [|x pre]; [reflexivity|]. cbn [List.length rev word_at]. rewrite <- app_assoc. rewrite app_nth2 by (rewrite rev_length; lia). rewrite rev_length, Nat.sub_diag. reflexivity.
  - rewrite app_nth2 by (rewrite rev_length; lia). rewrite rev_length. replace (S (List.length pre) - List.length pre) with 1 by lia. destruct t; reflexivity.
Qed.
Lemma split1_cuts s : forall m (pre cur : bytes) o, o + List.length cur = List.length pre ->
  cuts o (rev cur ++ s) (take_max m (filter (separates (rev pre ++ s)) (seq (List.length pre) (List.length s)))) (re_split1 split_rx m pre s cur).
Proof.
  induction s as [|c t IH]; intros m pre cur o Ho.
  - cbn [List.length seq filter re_split1]. rewrite app_nil_r. assert (E : take_max m (@nil nat) = []) by (destruct m as [[|k]|]; reflexivity). rewrite E. constructor.
  - rewrite split1_cons. cbn [List.length seq filter]. rewrite sep_here.
    assert (R : rev pre ++ c :: t = rev (c :: pre) ++ t) by (cbn [rev]; rewrite <- app_assoc; reflexivity). 
    change (S (List.length pre)) with (List.length (c :: pre)).
    destruct m as [[|k]|].
    + cbn [take_max firstn]. rewrite split1_zero. cbn [rev]. rewrite <- app_assoc. constructor.
    + destruct (is_space c && (word_at pre || word_at t)).
      * cbn [take_max firstn step_max]. replace (List.length pre) with (o + List.length (rev cur)) at 1 by (rewrite rev_length; exact Ho). apply cuts_more.
        rewrite R. apply (IH (Some k) (c :: pre) [] (o + List.length (rev cur) + 1)). rewrite rev_length. cbn. lia.
      * rewrite R. replace (rev cur ++ c :: t) with (rev (c :: cur) ++ t) by (cbn [rev]; rewrite <- app_assoc; reflexivity). apply (IH (Some (S k)) (c :: pre) (c :: cur) o). cbn. lia.
    + destruct (is_space c && (word_at pre || word_at t)).
      * cbn [take_max step_max]. replace (List.length pre) with (o + List.length (rev cur)) at 1 by (rewrite rev_length; exact Ho). apply cuts_more.
        rewrite R. apply (IH None (c :: pre) [] (o + List.length (rev cur) + 1)). rewrite rev_length. cbn. lia.
      * rewrite R. replace (rev cur ++ c :: t) with (rev (c :: cur) ++ t) by (cbn [rev]; rewrite <- app_assoc; reflexivity). apply (IH None (c :: pre) (c :: cur) o). cbn. lia.
Qed.
Lemma split_cuts k s : cuts 0 s (take_max (match k with O => None | _ => Some k end) (separators s)) (re_split split_rx k s).
Proof. exact (split1_cuts s _ [] [] 0 eq_refl). Qed.
Lemma cuts_length o s ps vs : cuts o s ps vs -> List.length vs = S (List.length ps).
Proof. induction 1; cbn; congruence. Qed.
(** the separators of the line read backwards *)
Lemma filter_rev_eq {A} (f : A -> bool) l : filter f (rev l) = rev (filter f l).
Proof. induction l as [|x l IH]; [reflexivity|]. cbn [rev filter]. rewrite filter_app, IH. cbn [filter]. destruct (f x); [reflexivity|rewrite app_nil_r; reflexivity]. Qed.
Lemma filter_map_eq {A C} (f : C -> bool) (g : A -> C) l : filter f (map g l) = map g (filter (fun x => f (g x)) l).
Proof. induction l as [|x l IH]; [reflexivity|]. cbn [map filter]. rewrite IH. destruct (f (g x)); reflexivity. Qed.
Lemma seq_back n : seq 0 n = map (fun p => n - 1 - p) (rev (seq 0 n)).
Proof.
  induction n as [|n IH]; [reflexivity|].
  transitivity (0 :: map S (seq 0 n)); [rewrite seq_shift; reflexivity|]. rewrite IH at 1.
  assert (E : seq 0 (S n) = seq 0 n ++ [n]) by (apply List.seq_S). rewrite E, rev_app_distr. cbn [rev app map]. f_equal; [lia|].
  rewrite map_map. apply map_ext_in. intros p Hp. apply in_rev in Hp. apply in_seq in Hp. lia.
Qed.
Lemma byte_rev line i : i < List.length line -> byte_at (rev line) i = byte_at line (List.length line - 1 - i).
Proof. intro H. unfold byte_at. rewrite rev_nth by exact H. f_equal. lia. Qed.
Lemma byte_out line i : List.length line <= i -> byte_at line i = 0%N.
Proof. intro H. unfold byte_at. apply nth_overflow. exact H. Qed.
Lemma separates_rev line i : i < List.length line -> separates (rev line) i = separates line (List.length line - 1 - i).
Proof.
  intro H. unfold separates. rewrite byte_rev by exact H. f_equal. rewrite orb_comm. f_equal.
  - destruct (List.length line - 1 - i) as [|j] eqn:E.
    + rewrite byte_out by (rewrite rev_length; lia). reflexivity.
    + rewrite byte_rev by lia. f_equal. f_equal. lia.
  - destruct i as [|j].
    + rewrite byte_out by lia. reflexivity.
    + rewrite byte_rev by lia. f_equal. f_equal. lia.
Qed.
Lemma separators_rev line : separators (rev line) = map (fun p => List.length line - 1 - p) (rev (separators line)).
Proof.
  unfold separators. rewrite rev_length, <- filter_rev_eq. rewrite seq_back at 1. rewrite filter_map_eq. f_equal.
  apply filter_ext_in. intros p Hp. apply in_rev in Hp. apply in_seq in Hp. rewrite separates_rev by lia. f_equal. lia.
Qed.
Lemma separators_bound line p : In p (separators line) -> p < List.length line.
Proof. unfold separators. intro H. apply filter_In in H as [H _]. apply in_seq in H. lia. Qed.
Lemma rev_take {A} k (l : list A) : rev (firstn k (rev l)) = skipn (List.length l - k) l.
Proof. rewrite firstn_rev, rev_involutive. reflexivity. Qed.
Lemma header_list_fields names line : arc_header_list names line = omap (combine names) (arc_fields names (rstrip_crlf line)).
Proof.
  unfold arc_header_list, arc_fields. set (s := rstrip_crlf line). pose proof (split_cuts 0 s) as H0. cbn [take_max] in H0.
  rewrite (cuts_length _ _ _ _ H0). pose proof (cuts_cut _ _ _ _ H0 [] eq_refl) as E0. cbn [app] in E0. rewrite E0.
  destruct (Nat.eqb (List.length names) (S (List.length (separators s)))) eqn:En.
  - cbn [bind omap]. rewrite (cuts_length _ _ _ _ H0), En. reflexivity.
  - destruct names as [|n ns]; [reflexivity|]. rewrite in_list_free. replace (List.length (n :: ns) - 1) with (List.length ns) by (cbn; lia).
    cbn [List.length] in En.
    assert (Hk : forall t, separators t <> [] \/ True -> exists ps, cuts 0 t ps (re_split split_rx (List.length ns) t) /\ ps = (if Nat.eqb (List.length ns) 0 then separators t else firstn (List.length ns) (separators t))).
    { intros t _. exists (take_max (match List.length ns with O => None | _ => Some (List.length ns) end) (separators t)). split; [apply split_cuts|]. destruct (List.length ns); reflexivity. }
    destruct (bytes_eqb n (B "URL") || bytes_eqb n (B "Content-type")).
    + destruct (Hk (rev s) (or_intror I)) as (ps & Hc & Ep). pose proof (cuts_rev _ _ _ _ Hc) as Hr. rewrite rev_involutive in Hr.
      rewrite rev_length in Hr. cbn [Nat.add] in Hr.
      assert (Eps : map (fun p => List.length s - 1 - p) (rev ps) = if Nat.eqb (List.length ns) 0 then separators s else skipn (List.length (separators s) - List.length ns) (separators s)).
      { rewrite Ep, separators_rev. destruct (Nat.eqb (List.length ns) 0).
        - rewrite <- map_rev, rev_involutive, map_map. rewrite <- (map_id (separators s)) at 2. apply map_ext_in. intros p Hp. apply separators_bound in Hp. lia.
        - rewrite firstn_map, <- map_rev, rev_take, map_map. rewrite <- (map_id (skipn _ _)) at 2. apply map_ext_in. intros p Hp.
          assert (Hin : In p (separators s)) by (rewrite <- (firstn_skipn (List.length (separators s) - List.length ns) (separators s)); apply in_or_app; right; exact Hp).
          apply separators_bound in Hin. lia. }
      rewrite Eps in Hr. cbn [bind]. pose proof (cuts_length _ _ _ _ Hr) as L. pose proof (cuts_cut _ _ _ _ Hr [] eq_refl) as E. cbn [app] in E.
      rewrite map_length, rev_length in L. rewrite map_length, rev_length.
      rewrite <- rev_length in L. rewrite rev_length in L. 
      destruct (Nat.eqb_spec (List.length ns) 0) as [Hz|Hz].
      * rewrite orb_true_r. cbn [omap List.length]. rewrite L. rewrite En. reflexivity.
      * rewrite orb_false_r, L, skipn_length. cbn [List.length]. destruct (Nat.ltb_spec (List.length (separators s)) (List.length ns)).
        -- destruct (Nat.eqb_spec (S (List.length ns)) (S (List.length (separators s) - (List.length (separators s) - List.length ns)))); [lia|reflexivity].
        -- destruct (Nat.eqb_spec (S (List.length ns)) (S (List.length (separators s) - (List.length (separators s) - List.length ns)))); [|lia]. cbn [omap]. rewrite E. reflexivity.
    + destruct (Hk s (or_intror I)) as (ps & Hc & Ep). cbn [bind]. pose proof (cuts_length _ _ _ _ Hc) as L. pose proof (cuts_cut _ _ _ _ Hc [] eq_refl) as E. cbn [app] in E.
      rewrite L. subst ps. destruct (Nat.eqb_spec (List.length ns) 0) as [Hz|Hz].
      * rewrite orb_true_r. cbn [omap List.length]. rewrite En. reflexivity.
      * rewrite orb_false_r, firstn_length. cbn [List.length]. destruct (Nat.ltb_spec (List.length (separators s)) (List.length ns)).
        -- destruct (Nat.eqb_spec (S (List.length ns)) (S (Nat.min (List.length ns) (List.length (separators s))))); [lia|reflexivity].
        -- destruct (Nat.eqb_spec (S (List.length ns)) (S (Nat.min (List.length ns) (List.length (separators s))))); [|lia]. cbn [omap]. rewrite E. reflexivity.
Qed.

(** ** Specification: records in a text *)
Definition white (l : bytes) : bool := forallb is_space l.
Definition is_desc (l : bytes) : bool := startswith (B "filedesc:") l.
(** an ARC record; [names] are the field names in force *)
Definition arc_read_record (c : rclass) (names vs : list bytes) : record :=
  mkrec c (combine names vs) (concat (map field_errors (combine names vs))) None CF_stream true.
(** [arc_reads names ls res names']: with the field names [names] in force, lines [ls] mean [res]: no further record, a record with
    the length of its content and the lines behind its head, or an exception; then [names'] are in force *)
Inductive arc_reads (names ls : list bytes) : outcome (option (record * option Z * list bytes)) -> list bytes -> Prop :=
| arc_end : Forall (fun l => white l = true) ls -> arc_reads names ls (Ret None) names
| arc_missing : forall before line more, ls = before ++ line :: more -> Forall (fun l => white l = true) before -> white line = false ->
    is_desc line = false -> names = [] -> arc_reads names ls (Raise E_filedesc) names
| arc_bad : forall before line more e, ls = before ++ line :: more -> Forall (fun l => white l = true) before -> white line = false ->
    is_desc line = false -> names <> [] -> arc_fields names (rstrip_crlf line) = Raise e -> arc_reads names ls (Raise e) names
| arc_rec : forall before line more vs, ls = before ++ line :: more -> Forall (fun l => white l = true) before -> white line = false ->
    is_desc line = false -> names <> [] -> arc_fields names (rstrip_crlf line) = Ret vs ->
    arc_reads names ls (Ret (Some (arc_read_record RArc names vs, archive_length (combine names vs) None, more))) names
| arc_desc_version : forall before line more, ls = before ++ line :: more -> Forall (fun l => white l = true) before -> white line = false ->
    is_desc line = true -> words (nth 0 more []) = [] -> arc_reads names ls (Raise EIndexError) names
| arc_desc_bad : forall before line more e, ls = before ++ line :: more -> Forall (fun l => white l = true) before -> white line = false ->
    is_desc line = true -> words (nth 0 more []) <> [] -> arc_fields (words (nth 1 more [])) (rstrip_crlf line) = Raise e ->
    arc_reads names ls (Raise e) (words (nth 1 more []))
| arc_desc_length : forall before line more vs, ls = before ++ line :: more -> Forall (fun l => white l = true) before -> white line = false ->
    is_desc line = true -> words (nth 0 more []) <> [] -> arc_fields (words (nth 1 more [])) (rstrip_crlf line) = Ret vs ->
    archive_length (combine (words (nth 1 more [])) vs) None = None ->
    arc_reads names ls (Raise ETypeError) (words (nth 1 more []))
| arc_desc : forall before line more vs n, ls = before ++ line :: more -> Forall (fun l => white l = true) before -> white line = false ->
    is_desc line = true -> words (nth 0 more []) <> [] -> arc_fields (words (nth 1 more [])) (rstrip_crlf line) = Ret vs ->
    archive_length (combine (words (nth 1 more [])) vs) None = Some n ->
    arc_reads names ls
      (Ret (Some (arc_read_record (RArcHeader (strip (nth 0 more [])) [line; nth 0 more []; nth 1 more []]) (words (nth 1 more [])) vs,
                  Some (n - Z.of_nat (List.length (nth 0 more [])) - Z.of_nat (List.length (nth 1 more [])))%Z, skipn 2 more)))
      (words (nth 1 more [])).
(** lines of nothing but CR and LF at the start *)
Fixpoint line_ends (ls : list bytes) : list bytes :=
  match ls with l :: t => if forallb (fun c => N.eqb c CR || N.eqb c LF) l then l :: line_ends t else [] | [] => [] end.
(** an ARC reader between two records *)
Definition arc_ready (gz : bool) (st : stream) (pos : nat) (text : bytes) (names : list bytes) : Prop :=
  s_kind st = (if gz then SGzipRecord else SPlain) /\ (exists a, s_parser st = PArc a /\ a_headers a = names) /\ s_eoc st = None /\
  f_pos (s_fh st) = pos /\ f_rest (s_fh st) = text.

(** ** Lemmas *)
Lemma arc_fields_total names line : exists x, arc_fields names line = x /\ x <> Diverge.
Proof.
  eexists. split; [reflexivity|]. unfold arc_fields. destruct (Nat.eqb _ _); [discriminate|]. destruct names as [|n ns]; [discriminate|].
  destruct (_ || _); [discriminate|]. destruct (_ || _); discriminate.
Qed.
Lemma white_split ls : Forall (fun l => white l = true) ls \/
  exists before line more, ls = before ++ line :: more /\ Forall (fun l => white l = true) before /\ white line = false.
Proof.
  induction ls as [|l t [IH|(b & x & m & -> & Hb & Hx)]]; [left; constructor| |]; destruct (white l) eqn:E.
  - left. constructor; assumption.
  - right. exists [], l, t. repeat split; [constructor|exact E].
  - right. exists (l :: b), x, m. repeat split; [constructor; assumption|exact Hx].
  - right. exists [], l, (b ++ x :: m). repeat split; [constructor|exact E].
Qed.
Lemma white_unique ls b1 l1 m1 b2 l2 m2 : ls = b1 ++ l1 :: m1 -> ls = b2 ++ l2 :: m2 ->
  Forall (fun l => white l = true) b1 -> Forall (fun l => white l = true) b2 -> white l1 = false -> white l2 = false -> b1 = b2 /\ l1 = l2 /\ m1 = m2.
Proof.
  revert ls b2. induction b1 as [|x b1 IH]; intros ls b2 E1 E2 F1 F2 H1 H2; destruct b2 as [|y b2]; cbn [app] in *.
  - rewrite E1 in E2. injection E2 as -> ->. repeat split.
  - rewrite E1 in E2. injection E2 as -> _. inversion F2; subst. congruence.
  - rewrite E1 in E2. injection E2 as -> _. inversion F1; subst. congruence.
  - inversion F1; subst x0 l. inversion F2; subst x0 l. rewrite E1 in E2. injection E2 as -> E2.
    destruct (IH _ b2 eq_refl E2) as (-> & -> & ->); auto.
Qed.
Lemma ws_skip_before before line more : Forall (fun l => white l = true) before -> white line = false -> ws_skip (before ++ line :: more) = line :: more.
Proof. induction 1 as [|l t Hl Ht IH]; intro H; cbn [app ws_skip]; [unfold white in H; rewrite H; reflexivity|]. unfold white in Hl. rewrite Hl. auto. Qed.
Lemma ws_skip_white ls : Forall (fun l => white l = true) ls -> ws_skip ls = [].
Proof. induction 1 as [|l t Hl Ht IH]; cbn [ws_skip]; [reflexivity|]. unfold white in Hl. rewrite Hl. exact IH. Qed.
Lemma blank_line_ends ls : Forall (fun l => l <> []) ls -> blank_lines ls = List.length (concat (line_ends ls)).
Proof.
  induction 1 as [|l t Hl Ht IH]; cbn [blank_lines line_ends]; [reflexivity|]. unfold crlf_only. destruct l as [|c l]; [contradiction|].
  change (fun c0 => N.eqb c0 CR || N.eqb c0 LF) with is_crlf. destruct (forallb is_crlf (c :: l)); [|reflexivity]. cbn [concat]. rewrite app_length, IH. reflexivity.
Qed.
Lemma arc_blank_at ls : forall fuel st, s_eoc st = None -> lines_of (rest st) = ls -> List.length ls < fuel ->
  exists n, arc_blank_loop fuel (adv st (List.length (hd [] ls))) (hd [] ls) =
    (Ret (match ws_skip ls with [] => None | l :: _ => Some l end), adv st n) /\
    n + List.length (concat (tl (ws_skip ls))) = List.length (concat ls).
Proof.
  induction ls as [|l t IH]; intros fuel st He Hl Hf; destruct fuel as [|fuel]; try (cbn in Hf; lia).
  - exists 0. cbn [hd List.length arc_blank_loop ws_skip tl]. split; [reflexivity|]. reflexivity.
  - destruct (readline_lines st He) as [_ Ht]. rewrite Hl in Ht. cbn [hd tl] in Ht |- *. cbn [arc_blank_loop ws_skip].
    destruct (forallb is_space l) eqn:Eb.
    + rewrite (proj2 (rstrip_blank l) Eb).
      assert (Hne : l <> []) by (apply (lines_one_line (rest st)); rewrite Hl; left; reflexivity).
      destruct l as [|c l']; [contradiction|]. set (l := c :: l') in *. set (st1 := adv st (List.length l)) in *.
      destruct (readline_lines st1 He) as [Er _]. rewrite Er, Ht.
      destruct (IH fuel st1 He Ht ltac:(cbn in Hf; lia)) as (n & E & Hn). rewrite E. exists (List.length l + n).
      unfold st1. rewrite adv_adv. split; [reflexivity|]. cbn [concat]. rewrite app_length. lia.
    + exists (List.length l). destruct (rstrip l) as [|c0 t0] eqn:Er; [apply rstrip_blank in Er; congruence|].
      split; [reflexivity|]. cbn [concat tl]. rewrite app_length. reflexivity.
Qed.
Lemma read_record_arc_at st a b : s_eoc st = None -> s_parser st = PArc a ->
  let ls := lines_of (rest st) in
  let off := item_offset (s_kind st) b (StreamFacts.pos st + blank_lines ls) in
  exists n, n + List.length (concat (tl (ws_skip ls))) = List.length (rest st) /\
  read_record st b = ArcFacts.finish (s_kind st)
    match ws_skip ls with
    | [] => (Ret (None, [], off), adv st n)
    | l :: _ => let '(o, a', st') := arc_parse a (adv st n) off (Some l) in (o, set_parser st' (PArc a'))
    end.
Proof.
  intros He Hp. cbn zeta. rewrite (read_record_run st b He). cbn zeta. set (ls := lines_of (rest st)).
  set (st1 := adv st (blank_lines ls)).
  destruct (blank_lines_split ls) as (bs & Ebs & L).
  assert (Hls1 : lines_of (rest st1) = after_blank ls).
  { unfold st1. rewrite rest_adv. apply (lines_of_skip_lines _ _ bs); [exact Ebs|]. symmetry. exact L. }
  assert (Hfu : List.length (after_blank ls) < file_fuel (s_fh st1)).
  { unfold st1. rewrite fuel_adv. pose proof (rest_fuel st). pose proof (lines_length (rest st)). pose proof (after_blank_length ls). unfold ls in *. lia. }
  destruct (arc_blank_at (after_blank ls) (file_fuel (s_fh st1)) st1 He Hls1 Hfu) as (n & E & Hn).
  exists (blank_lines ls + n). rewrite ws_skip_after in E, Hn.
  split. { assert (X : List.length (rest st) = List.length (concat bs) + List.length (concat (after_blank ls))).
    { pose proof (f_equal (fun x : list bytes => List.length (concat x)) Ebs) as X0. cbn beta in X0. rewrite concat_app, app_length in X0. rewrite <- X0. unfold ls. rewrite concat_lines. reflexivity. } lia. }
  f_equal. unfold run_parser. change (s_parser (adv st _)) with (s_parser st). rewrite Hp. rewrite first_text_after, <- adv_adv. fold st1.
  unfold arc_parse, arc_parse_fuel. rewrite fuel_adv. rewrite E. unfold st1 at 1. rewrite adv_adv.
  destruct (ws_skip ls) as [|l t] eqn:Ew.
  - cbn [hd]. f_equal. unfold st1. rewrite adv_adv, <- Hp. apply (set_parser_eta (adv st (blank_lines ls + n))).
  - assert (Hl : forallb is_space l = false).
    { clear -Ew. induction ls as [|x ls IH]; [discriminate|]. cbn [ws_skip] in Ew. destruct (forallb is_space x) eqn:Ex; [auto|]. injection Ew as -> _. exact Ex. }
    assert (Hb : arc_blank_loop (file_fuel (s_fh (adv st (blank_lines ls + n)))) (adv st (blank_lines ls + n)) l = (Ret (Some l), adv st (blank_lines ls + n))).
    { unfold file_fuel. cbn [arc_blank_loop]. destruct (rstrip l) eqn:Er; [apply rstrip_blank in Er; congruence|reflexivity]. }
    rewrite Hb. unfold st1. rewrite adv_adv. reflexivity.
Qed.

(** every text has exactly one reading *)
Theorem C77_every_arc_text_has_one_reading : forall names text,
  exists res names', arc_reads names (lines_of text) res names' /\
    forall res2 names2, arc_reads names (lines_of text) res2 names2 -> res2 = res /\ names2 = names'.
Proof.
  intros names text. generalize (lines_of text). intro ls.
  assert (T : exists res names', arc_reads names ls res names').
  { destruct (white_split ls) as [H|(b & l & m & E & Hb & Hl)]; [do 2 eexists; apply arc_end; exact H|].
    destruct (is_desc l) eqn:Ed.
    - destruct (words (nth 0 m [])) as [|v0 vt] eqn:Ew; [do 2 eexists; eapply arc_desc_version; eassumption|].
      assert (Hw : words (nth 0 m []) <> []) by (rewrite Ew; discriminate).
      destruct (arc_fields_total (words (nth 1 m [])) (rstrip_crlf l)) as ([vs|e|] & Ef & Hd); [| |contradiction].
      + destruct (archive_length (combine (words (nth 1 m [])) vs) None) eqn:En; do 2 eexists; [eapply arc_desc|eapply arc_desc_length]; eassumption.
      + do 2 eexists. eapply arc_desc_bad; eassumption.
    - destruct names as [|n ns] eqn:En; [do 2 eexists; eapply arc_missing; try eassumption; reflexivity|].
      destruct (arc_fields_total (n :: ns) (rstrip_crlf l)) as ([vs|e|] & Ef & Hd); [| |contradiction]; do 2 eexists; [eapply arc_rec|eapply arc_bad]; try eassumption; discriminate. }
  destruct T as (res & names' & T). exists res, names'. split; [exact T|]. intros res2 names2 T2.
  assert (W : forall b l m, ls = b ++ l :: m -> Forall (fun l => white l = true) b -> white l = false -> Forall (fun l => white l = true) ls -> False).
  { intros b l m E _ Hl F. rewrite E in F. apply Forall_app in F as [_ F]. inversion F. congruence. }
  destruct T, T2; try (exfalso; eauto; fail); try (split; reflexivity);
  match goal with E1 : ls = ?b1 ++ ?l1 :: ?m1, E2 : ls = ?b2 ++ ?l2 :: ?m2 |- _ => destruct (white_unique ls b1 l1 m1 b2 l2 m2 E1 E2) as (<- & <- & <-); [assumption|assumption|assumption|assumption|] end;
  try (split; congruence).
Qed.

(** the parser after the first line that is not blank *)
Lemma blank_none fuel st l : white l = false -> arc_blank_loop (S fuel) st l = (Ret (Some l), st).
Proof. intro H. cbn [arc_blank_loop]. destruct (rstrip l) eqn:Er; [apply rstrip_blank in Er; unfold white in H; congruence|reflexivity]. Qed.
Lemma two_lines st more : s_eoc st = None -> lines_of (rest st) = more ->
  exists n, (let '(v, st2) := stream_readline st None in let '(w, st3) := stream_readline st2 None in (v, w, st3)) = (nth 0 more [], nth 1 more [], adv st n) /\
    rest (adv st n) = concat (skipn 2 more) /\ n + List.length (concat (skipn 2 more)) = List.length (rest st).
Proof.
  intros He Hm. destruct (readline_lines st He) as [E1 T1]. rewrite Hm in E1, T1. rewrite E1.
  set (st2 := adv st (List.length (hd [] more))) in *. destruct (readline_lines st2 He) as [E2 T2]. rewrite T1 in E2, T2. rewrite E2.
  unfold st2 in *. rewrite adv_adv in *. eexists. split; [|split].
  - f_equal. f_equal; destruct more as [|x [|y m]]; reflexivity.
  - rewrite <- (concat_lines (rest (adv st _))). rewrite T2. destruct more as [|x [|y m]]; reflexivity.
  - pose proof (concat_lines (rest st)) as C. rewrite Hm in C. rewrite <- C. destruct more as [|x [|y m]]; cbn [hd tl concat skipn]; rewrite ?app_length; cbn [List.length]; lia.
Qed.
Lemma header_list_of names line : Forall plain_value names ->
  match arc_fields names (rstrip_crlf line) with
  | Ret vs => arc_header_list names line = Ret (combine names vs) /\
    arc_content_headers (combine names vs) None [] = (archive_length (combine names vs) None, concat (map field_errors (combine names vs)))
  | Raise e => arc_header_list names line = Raise e
  | Diverge => False
  end.
Proof.
  intro H. rewrite header_list_fields. destruct (arc_fields_total names (rstrip_crlf line)) as (x & E & Hx). rewrite E.
  destruct x as [vs|e|]; [|reflexivity|contradiction]. split; [reflexivity|]. apply (arc_content_eq _ (combine_names names vs H) None []).
Qed.

(** ** C77 *)
(** the answer of the reader, its state and the field names behind it *)
Theorem C77_arc_reader_follows : forall gz st pos text names offsets res names',
  arc_ready gz st pos text names -> Forall plain_value names -> arc_reads names (lines_of text) res names' ->
  let offset := told (offsets && negb gz) (pos + List.length (concat (line_ends (lines_of text)))) in
  exists st' a', s_parser st' = PArc a' /\ a_headers a' = names' /\ Forall plain_value names' /\
    s_kind st' = s_kind st /\ f_data (s_fh st') = f_data (s_fh st) /\
    match res with
    | Ret None => read_record st offsets = (Ret (offset, None, []), st') /\ s_eoc st' = None /\ f_rest (s_fh st') = []
    | Ret (Some (r, len, more)) =>
        read_record st offsets = (Ret (offset, Some r, []), st') /\ s_eoc st' = len /\
    f_rest (s_fh st') = concat more /\ f_pos (s_fh st') + List.length (concat more) = pos + List.length text
    | Raise e => read_record st offsets = (Raise e, st')
    | Diverge => False
    end.
Proof.
  intros gz st pos text names b res names' (Hk & (a & Hp & Ha) & He & Hpos & Hr) Hpn HR. cbn zeta.
  destruct (read_record_arc_at st a b He Hp) as (n & Hn & E). change (rest st) with (f_rest (s_fh st)) in *. rewrite Hr in *.
  set (off := item_offset (s_kind st) b (StreamFacts.pos st + blank_lines (lines_of text))) in *.
  assert (Hoff : off = told (b && negb gz) (pos + List.length (concat (line_ends (lines_of text))))).
  { unfold off. rewrite blank_line_ends by (apply Forall_forall; intros l Hl; apply (lines_one_line text l Hl)). rewrite Hk. unfold item_offset, told. change (StreamFacts.pos st) with (f_pos (s_fh st)). rewrite Hpos. destruct gz, b; reflexivity. }
  rewrite <- Hoff.
  assert (Hdone : ws_skip (lines_of text) = [] -> rest (adv st n) = []).
  { intro W. rewrite W in Hn. cbn in Hn. rewrite rest_adv. apply skipn_all2. change (rest st) with (f_rest (s_fh st)). rewrite Hr. lia. }
  assert (HF : forall x st', ArcFacts.finish (s_kind st) (Ret (x, [], off), st') = (Ret (off, x, []), st')).
  { intros x st'. unfold ArcFacts.finish, off, item_offset. rewrite Hk. destruct gz; reflexivity. }
  (* with a line that is not blank *)
  assert (HL : forall before line more, lines_of text = before ++ line :: more -> Forall (fun l => white l = true) before -> white line = false ->
    ws_skip (lines_of text) = line :: more /\ rest (adv st n) = concat more /\ n + List.length (concat more) = List.length text /\ lines_of (rest (adv st n)) = more).
  { intros before line more El Hb Hw. rewrite El, (ws_skip_before before line more Hb Hw) in Hn. cbn [tl] in Hn.
    assert (X : rest (adv st n) = concat more).
    { rewrite rest_adv. change (rest st) with (f_rest (s_fh st)). rewrite Hr.
      pose proof (concat_lines text) as C. rewrite El, concat_app in C. cbn [concat] in C. rewrite app_assoc in C.
      assert (Ln : n = List.length (concat before ++ line)) by (rewrite <- C, app_length in Hn; lia).
      rewrite <- C, skipn_app, Ln, skipn_all, Nat.sub_diag. reflexivity. }
    split; [rewrite El; apply ws_skip_before; assumption|]. split; [exact X|]. split; [exact Hn|].
    rewrite rest_adv. apply (lines_of_skip_lines _ _ (before ++ [line])); [change (rest st) with (f_rest (s_fh st)); rewrite Hr, El, <- app_assoc; reflexivity|].
    rewrite concat_app. cbn [concat]. rewrite app_nil_r. pose proof (concat_lines text) as C. rewrite El, concat_app in C. cbn [concat] in C.
    rewrite <- C, !app_length in Hn. rewrite app_length. lia. }
  assert (HP : forall p, s_parser (set_parser (adv st n) p) = p) by reflexivity.
  destruct HR as [Hw|before line more El Hb Hw Hd Hnn|before line more e El Hb Hw Hd Hnn Hf|before line more vs El Hb Hw Hd Hnn Hf
    |before line more El Hb Hw Hd Hv|before line more e El Hb Hw Hd Hv Hf|before line more vs El Hb Hw Hd Hv Hf Hlen|before line more vs z El Hb Hw Hd Hv Hf Hlen].
  - pose proof (ws_skip_white _ Hw) as W. rewrite W in E. rewrite HF in E. exists (adv st n), a. repeat split; auto.
  - destruct (HL _ _ _ El Hb Hw) as (W & _). rewrite W in E. unfold arc_parse, arc_parse_fuel, file_fuel in E. rewrite blank_none in E by exact Hw.
    unfold is_desc in Hd. change FILEDESC with (B "filedesc:") in E. rewrite Hd, Ha, Hnn in E. exists (set_parser (adv st n) (PArc a)), a. repeat split; auto; try congruence; rewrite E; reflexivity.
  - destruct (HL _ _ _ El Hb Hw) as (W & _). rewrite W in E. unfold arc_parse, arc_parse_fuel, file_fuel in E. rewrite blank_none in E by exact Hw.
    unfold is_desc in Hd. change FILEDESC with (B "filedesc:") in E. rewrite Hd, Ha in E.
    pose proof (header_list_of names line Hpn) as Hh. rewrite Hf in Hh. rewrite Hh in E. destruct names as [|n0 ns]; [contradiction|].
    exists (set_parser (adv st n) (PArc a)), a. repeat split; auto; rewrite E; reflexivity.
  - destruct (HL _ _ _ El Hb Hw) as (W & Rm & Nm & _). rewrite W in E. unfold arc_parse, arc_parse_fuel, file_fuel in E. rewrite blank_none in E by exact Hw.
    unfold is_desc in Hd. change FILEDESC with (B "filedesc:") in E. rewrite Hd, Ha in E.
    pose proof (header_list_of names line Hpn) as Hh. rewrite Hf in Hh. destruct Hh as [Hh Hc]. rewrite Hh, Hc in E. destruct names as [|n0 ns] eqn:En; [contradiction|].
    rewrite HF in E. eexists (set_parser (set_eoc (adv st n) _) (PArc a)), a. split; [reflexivity|]. repeat split; auto; try exact Rm. cbn. rewrite Hpos. lia.
  - destruct (HL _ _ _ El Hb Hw) as (W & _ & _ & Lm). rewrite W in E. unfold arc_parse, arc_parse_fuel, file_fuel in E. rewrite blank_none in E by exact Hw.
    unfold is_desc in Hd. change FILEDESC with (B "filedesc:") in E. rewrite Hd in E.
    destruct (two_lines (adv st n) more He Lm) as (k & E2 & Rk & Nk).
    destruct (stream_readline (adv st n) None) as [v st2]. destruct (stream_readline st2 None) as [w st3]. injection E2 as -> -> ->.
    rewrite split_ws_strip in E. unfold words in Hv. rewrite Hv in E. rewrite adv_adv in E.
    exists (set_parser (adv st (n + k)) (PArc a)), a. repeat split; auto; rewrite E; reflexivity.
  - destruct (HL _ _ _ El Hb Hw) as (W & _ & _ & Lm). rewrite W in E. unfold arc_parse, arc_parse_fuel, file_fuel in E. rewrite blank_none in E by exact Hw.
    unfold is_desc in Hd. change FILEDESC with (B "filedesc:") in E. rewrite Hd in E.
    destruct (two_lines (adv st n) more He Lm) as (k & E2 & Rk & Nk).
    destruct (stream_readline (adv st n) None) as [v st2]. destruct (stream_readline st2 None) as [w st3]. injection E2 as -> -> ->.
    rewrite !split_ws_strip in E. change split_ws with words in E. destruct (words (nth 0 more [])) as [|v0 vt]; [contradiction|]. cbn [a_headers] in E.
    pose proof (header_list_of (words (nth 1 more [])) line (words_plain _)) as Hh. rewrite Hf in Hh. rewrite Hh in E. rewrite adv_adv in E.
    eexists (set_parser (adv st (n + k)) (PArc (mkarc v0 (words (nth 1 more []))))), _. repeat split; auto; try apply words_plain; rewrite E; reflexivity.
  - destruct (HL _ _ _ El Hb Hw) as (W & _ & _ & Lm). rewrite W in E. unfold arc_parse, arc_parse_fuel, file_fuel in E. rewrite blank_none in E by exact Hw.
    unfold is_desc in Hd. change FILEDESC with (B "filedesc:") in E. rewrite Hd in E.
    destruct (two_lines (adv st n) more He Lm) as (k & E2 & Rk & Nk).
    destruct (stream_readline (adv st n) None) as [v st2]. destruct (stream_readline st2 None) as [w st3]. injection E2 as -> -> ->.
    rewrite !split_ws_strip in E. change split_ws with words in E. destruct (words (nth 0 more [])) as [|v0 vt]; [contradiction|]. cbn [a_headers] in E.
    pose proof (header_list_of (words (nth 1 more [])) line (words_plain _)) as Hh. rewrite Hf in Hh. destruct Hh as [Hh Hc]. rewrite Hh, Hc, Hlen in E. rewrite adv_adv in E.
    eexists (set_parser (adv st (n + k)) (PArc (mkarc v0 (words (nth 1 more []))))), _. repeat split; auto; try apply words_plain; rewrite E; reflexivity.
  - destruct (HL _ _ _ El Hb Hw) as (W & Rm & Nm & Lm). rewrite W in E. unfold arc_parse, arc_parse_fuel, file_fuel in E. rewrite blank_none in E by exact Hw.
    unfold is_desc in Hd. change FILEDESC with (B "filedesc:") in E. rewrite Hd in E.
    destruct (two_lines (adv st n) more He Lm) as (k & E2 & Rk & Nk).
    destruct (stream_readline (adv st n) None) as [v st2]. destruct (stream_readline st2 None) as [w st3]. injection E2 as -> -> ->.
    rewrite !split_ws_strip in E. change split_ws with words in E. destruct (words (nth 0 more [])) as [|v0 vt]; [contradiction|]. cbn [a_headers] in E.
    pose proof (header_list_of (words (nth 1 more [])) line (words_plain _)) as Hh. rewrite Hf in Hh. destruct Hh as [Hh Hc]. rewrite Hh, Hc, Hlen, HF in E. rewrite adv_adv in *.
    eexists (set_parser (set_eoc (adv st (n + k)) _) (PArc (mkarc v0 (words (nth 1 more []))))), (mkarc v0 (words (nth 1 more []))). split; [|split; [reflexivity|split; [apply words_plain|]]]; [|split; [|split; [|split; [exact E|]]]]; try reflexivity.
    split; [reflexivity|]. split; [exact Rk|]. change (f_pos (s_fh st) + (n + k) + List.length (concat (skipn 2 more)) = pos + List.length text). rewrite Hpos. rewrite Rm in Nk. lia.
Qed.
(** ** C77: concrete cases *)
Definition desc_line : bytes := B "filedesc://a.arc 20200101000000 41" ++ [LF].
Definition desc_more : list bytes := [B "1 0 IA" ++ [LF]; B "URL Archive-date Archive-length" ++ [LF]; [LF]; [LF]; B "http://h.org/a b c 20200102030405 3" ++ CRLF; B "abc"].
Definition arc_any_text : bytes := concat ([[CR; LF]; B "  " ++ [LF]; desc_line] ++ desc_more).
Definition three_names : list bytes := [B "URL"; B "Archive-date"; B "Archive-length"].
Example C77_hypotheses_met :
  arc_ready false (new_stream SPlain (mkfile arc_any_text 0 true) (PArc arc_init)) 0 arc_any_text [] /\
  (* a filedesc record behind a line end and a line of blanks; its offset is that of the blanks *)
  arc_reads [] (lines_of arc_any_text)
    (Ret (Some (arc_read_record (RArcHeader (B "1 0 IA") (desc_line :: firstn 2 desc_more)) three_names [B "filedesc://a.arc"; B "20200101000000"; B "41"],
                Some 2%Z, skipn 2 desc_more))) three_names /\
  line_ends (lines_of arc_any_text) = [[CR; LF]] /\
  (* a URL with blanks; a missing field; a record before any filedesc *)
  arc_fields three_names (B "http://h.org/a b c 20200102030405 3") = Ret [B "http://h.org/a b c"; B "20200102030405"; B "3"] /\
  arc_fields three_names (B "http://h.org/ 20200102030405") = Raise ETypeError /\
  arc_fields [B "Host"; B "Type"] (B "h a b") = Ret [B "h"; B "a b"] /\
  arc_fields [B "URL"] (B "http://h.org/a b") = Raise ETypeError /\
  arc_reads [] [B "http://h.org/ 1.2.3.4"] (Raise E_filedesc) [].
Proof.
  split; [repeat split; eexists; split; reflexivity|]. split.
  { assert (E : three_names = words (nth 1 desc_more [])) by (vm_compute; reflexivity). rewrite E.
    apply (arc_desc [] _ [[CR; LF]; B "  " ++ [LF]] desc_line desc_more [B "filedesc://a.arc"; B "20200101000000"; B "41"] 41%Z); try (vm_compute; reflexivity).
    - repeat constructor.
    - vm_compute. discriminate. }
  split; [vm_compute; reflexivity|]. split; [vm_compute; reflexivity|]. split; [vm_compute; reflexivity|]. split; [vm_compute; reflexivity|]. split; [vm_compute; reflexivity|].
  apply (arc_missing [] _ [] (B "http://h.org/ 1.2.3.4") []); try reflexivity. constructor.
Qed.
