(** The ARC parser on well-formed header lines. *)
From Verif Require Export ArcSpec WarcArchive.
From Coq Require Import String List.
Open Scope list_scope.

(** ** where \b\s|\s\b matches *)
Definition here_rx (pre suf : bytes) : bool :=
  match rmatch split_rx pre suf [] (fun _ _ _ => Some tt) with Some _ => true | None => false end.
Lemma space_not_word c : is_space c = true -> is_word c = false.
Proof. unfold is_space, is_word, is_digit, is_upper, is_lower. intro H.
  apply orb_true_iff in H. repeat (apply orb_false_iff; split); lia. Qed.
Lemma here_eq pre c t : here_rx pre (c :: t) = is_space c && (word_at pre || word_at t).
Proof.
  unfold here_rx, split_rx. cbn [rmatch]. cbn [word_at]. destruct (is_space c) eqn:E.
  - rewrite (space_not_word _ E). destruct (word_at pre); cbn [xorb orb andb]; [reflexivity|].
    destruct (word_at t); reflexivity.
  - destruct (xorb (word_at pre) (is_word c)); reflexivity.
Qed.
Definition step_max (m : option nat) : option nat := match m with Some (S k) => Some k | _ => m end.
Lemma split1_cons m pre c t cur : re_split1 split_rx m pre (c :: t) cur =
  if (match m with Some O => false | _ => is_space c && (word_at pre || word_at t) end)
  then rev cur :: re_split1 split_rx (step_max m) (c :: pre) t []
  else re_split1 split_rx m (c :: pre) t (c :: cur).
Proof. cbn [re_split1]. fold (here_rx pre (c :: t)). rewrite here_eq. reflexivity. Qed.
Lemma split1_zero s : forall pre cur, re_split1 split_rx (Some 0) pre s cur = [rev cur ++ s].
Proof. induction s as [|c t IH]; intros pre cur; [cbn; rewrite app_nil_r; reflexivity|].
  rewrite split1_cons, IH. cbn [rev]. rewrite <- app_assoc. reflexivity. Qed.
Lemma split1_plain v : forall m pre s cur, plain_value v ->
  re_split1 split_rx m pre (v ++ s) cur = re_split1 split_rx m (rev v ++ pre) s (rev v ++ cur).
Proof.
  induction v as [|c v IH]; intros m pre s cur H; [reflexivity|]. cbn [app]. rewrite split1_cons.
  rewrite (H c (or_introl eq_refl)). cbn [andb].
  assert (E : (match m with Some 0 => false | _ => false end) = false) by (destruct m as [[|k]|]; reflexivity). rewrite E.
  rewrite IH by (intros x Hx; apply H; right; exact Hx). cbn [rev]. rewrite <- !app_assoc. reflexivity.
Qed.
Lemma word_at_app a b : a <> [] -> word_at (a ++ b) = word_at a.
Proof. destruct a; [contradiction|reflexivity]. Qed.
(** only the last byte before matters *)
Lemma split1_pre s : forall m pre pre' cur, word_at pre = word_at pre' ->
  re_split1 split_rx m pre s cur = re_split1 split_rx m pre' s cur.
Proof. induction s as [|c t IH]; intros m pre pre' cur H; [reflexivity|]. rewrite !split1_cons, H.
  destruct (match m with Some 0 => _ | _ => _ end); [f_equal|]; apply (IH _ (c :: pre) (c :: pre')); reflexivity. Qed.
(** splitting at a space that has a word character on one side *)
Lemma split1_app u : forall pre s cur, word_at (rev u ++ pre) || word_at s = true ->
  re_split1 split_rx None pre (u ++ SP :: s) cur =
  re_split1 split_rx None pre u cur ++ re_split1 split_rx None [] s [].
Proof.
  induction u as [|c u IH]; intros pre s cur H.
  - cbn [rev app] in H. rewrite app_nil_l, split1_cons. change (is_space SP) with true. cbn [andb]. rewrite H.
    cbn [re_split1 app step_max]. apply (f_equal (cons (rev cur))). apply (split1_pre s None (SP :: pre) []). reflexivity.
  - cbn [app]. rewrite !split1_cons. cbn [rev] in H. rewrite <- app_assoc in H. cbn [app] in H.
    assert (E : word_at (u ++ SP :: s) = word_at u) by (destruct u; reflexivity). rewrite E.
    destruct (is_space c && (word_at pre || word_at u)); rewrite IH by exact H; reflexivity.
Qed.
Lemma split_join vs : vs <> [] -> joints vs ->
  re_split split_rx 0 (fields_text vs) = concat (map (re_split split_rx 0) vs).
Proof.
  unfold re_split, fields_text. induction vs as [|v [|w t] IH]; intros Hn Hj; [contradiction|cbn; rewrite app_nil_r; reflexivity|].
  destruct Hj as [Hj Ht]. cbn [join map concat]. cbn [app]. rewrite split1_app.
  - f_equal. apply IH; [discriminate|exact Ht].
  - rewrite app_nil_r. destruct Hj as [Hj|Hj]; apply orb_true_iff; [left; exact Hj|right].
    destruct w as [|x w]; [discriminate|]. destruct t; exact Hj.
Qed.
Lemma split_plain v : plain_value v -> re_split split_rx 0 v = [v].
Proof. intro H. unfold re_split. rewrite <- (app_nil_r v) at 1. rewrite split1_plain by exact H. cbn [re_split1].
  rewrite !app_nil_r, rev_involutive. reflexivity. Qed.
Lemma split1_length s : forall m pre cur, 1 <= List.length (re_split1 split_rx m pre s cur).
Proof. induction s as [|c t IH]; intros m pre cur; [cbn; lia|]. rewrite split1_cons. destruct (match m with Some 0 => _ | _ => _ end); [cbn; lia|apply IH]. Qed.
Lemma split1_single s : forall m pre cur, List.length (re_split1 split_rx m pre s cur) = 1 ->
  re_split1 split_rx m pre s cur = [rev cur ++ s].
Proof.
  induction s as [|c t IH]; intros m pre cur H; [cbn; rewrite app_nil_r; reflexivity|]. rewrite split1_cons in *.
  destruct (match m with Some 0 => _ | _ => _ end).
  - cbn in H. pose proof (split1_length t (step_max m) (c :: pre) []). lia.
  - rewrite IH by exact H. cbn [rev]. rewrite <- app_assoc. reflexivity.
Qed.
Lemma split_single s : List.length (re_split split_rx 0 s) = 1 -> re_split split_rx 0 s = [s].
Proof. intro H. unfold re_split in *. rewrite split1_single by exact H. reflexivity. Qed.
(** a limited split: plain values first, the last one is free *)
Lemma split_limit vs : forall last pre, Forall plain_value vs -> joints (vs ++ [last]) ->
  word_at pre = false ->
  re_split1 split_rx (Some (List.length vs)) pre (join [SP] (vs ++ [last])) [] = vs ++ [last].
Proof.
  induction vs as [|v vs IH]; intros last pre Hp Hj Hw.
  - cbn [List.length app join]. rewrite split1_zero. reflexivity.
  - inversion Hp; subst. cbn [List.length app].
    assert (E : exists w t, vs ++ [last] = w :: t) by (destruct vs; cbn; eauto). destruct E as (w & t & E).
    cbn [app] in Hj. rewrite E in Hj. destruct Hj as [Hj Ht].
    cbn [join]. rewrite E. rewrite split1_plain by assumption. cbn [app]. rewrite split1_cons.
    change (is_space SP) with true. cbn [andb].
    assert (Hc : word_at (rev v ++ pre) || word_at (join [SP] (w :: t)) = true).
    { destruct Hj as [Hj|Hj]; apply orb_true_iff; [left|right].
      - unfold ends_word in Hj. destruct (rev v); [discriminate|exact Hj].
      - destruct w as [|x w]; [discriminate|]. destruct t; exact Hj. }
    rewrite Hc. rewrite app_nil_r, rev_involutive. cbn [step_max]. rewrite <- E.
    apply (f_equal (cons v)). apply IH; [assumption| |reflexivity]. rewrite E. exact Ht.
Qed.

(** ** reversal *)
Lemma joints_app a : forall b x y, joints (a ++ [x]) -> joints (y :: b) -> (ends_word x = true \/ starts_word y = true) ->
  joints (a ++ x :: y :: b).
Proof.
  induction a as [|v a IH]; intros b x y Ha Hb Hx.
  - cbn. split; assumption.
  - pose proof (IH b x y) as IH'. destruct a as [|w a]; cbn [app] in *; destruct Ha as [H1 H2]; (split; [exact H1|]); apply IH'; assumption.
Qed.
Lemma joints_rev vs : joints vs -> joints (rev (map (@rev N) vs)).
Proof.
  induction vs as [|v vs IH]; intro H; [exact I|]. cbn [map rev].
  destruct vs as [|w t]; [exact I|]. destruct H as [H1 H2]. cbn [map rev] in *. rewrite <- app_assoc. cbn [app].
  apply joints_app; [apply IH; exact H2|exact I|]. unfold ends_word in *. rewrite !rev_involutive. tauto.
Qed.
Lemma join_app sep a : forall b x y, join sep (a ++ x :: y :: b) = join sep (a ++ [x]) ++ sep ++ join sep (y :: b).
Proof.
  induction a as [|v a IH]; intros b x y; [reflexivity|].
  pose proof (IH b x y) as H. destruct a as [|w a].
  - cbn [app join]. rewrite <- !app_assoc. reflexivity.
  - change (v ++ sep ++ join sep ((w :: a) ++ x :: y :: b) = (v ++ sep ++ join sep ((w :: a) ++ [x])) ++ sep ++ join sep (y :: b)).
    rewrite H, <- !app_assoc. reflexivity.
Qed.
Lemma rev_fields vs : rev (fields_text vs) = fields_text (rev (map (@rev N) vs)).
Proof.
  unfold fields_text. induction vs as [|v vs IH]; [reflexivity|]. destruct vs as [|w t]; [reflexivity|].
  cbn [map rev] in *. rewrite <- app_assoc. cbn [app].
  transitivity (rev (join [SP] (w :: t)) ++ [SP] ++ rev v).
  - change (join [SP] (v :: w :: t)) with (v ++ [SP] ++ join [SP] (w :: t)). rewrite !rev_app_distr, <- app_assoc. reflexivity.
  - etransitivity; [|symmetry; apply (join_app [SP] (rev (map (@rev N) t)) [] (rev w) (rev v))]. f_equal. exact IH.
Qed.
Lemma plain_rev v : plain_value v -> plain_value (rev v).
Proof. intros H c Hc. apply H, in_rev. exact Hc. Qed.
Lemma rev_map_rev (vs : list bytes) : map (@rev N) (rev (rev (map (@rev N) vs))) = vs.
Proof. rewrite rev_involutive, map_map. rewrite <- (map_id vs) at 2. apply map_ext. apply rev_involutive. Qed.

(** ** parse_header_list *)
Lemma rstrip_crlf_eol s crlf : (forall t, s <> t ++ [CR]) -> no_lf s -> rstrip_crlf (s ++ eol crlf) = s.
Proof.
  intros H1 H2. unfold rstrip_crlf. rewrite rev_app_distr.
  assert (E : drop_while (fun c => N.eqb c 13 || N.eqb c 10) (rev (eol crlf) ++ rev s) = rev s).
  { rewrite drop_while_app_all by (destruct crlf; reflexivity). apply drop_while_none. intros c t E.
    apply (f_equal (@rev N)) in E. rewrite rev_involutive in E. cbn [rev] in E.
    apply orb_false_iff. split; apply N.eqb_neq; intros ->.
    - exact (H1 (rev t) E).
    - apply H2. rewrite E. apply in_or_app. right. left. reflexivity. }
  rewrite E. apply rev_involutive.
Qed.
Lemma concat_single_map (f : bytes -> list bytes) vs : (forall v, In v vs -> f v = [v]) -> concat (map f vs) = vs.
Proof. induction vs as [|v vs IH]; intro H; [reflexivity|]. cbn [map concat]. rewrite (H v) by (left; reflexivity).
  rewrite IH by (intros; apply H; right; assumption). reflexivity. Qed.
Lemma in_list_free n : in_list n [ARC_URL; ARC_CONTENT_TYPE] = bytes_eqb n (B "URL") || bytes_eqb n (B "Content-type").
Proof. unfold in_list. cbn [existsb]. rewrite orb_false_r. reflexivity. Qed.
Lemma header_list_ok names vs crlf : fields_ok names vs ->
  arc_header_list names (fields_text vs ++ eol crlf) = Ret (combine names vs).
Proof.
  intros (Hl & H2 & Hj & Hp & Hlf & Hcr). unfold arc_header_list. rewrite rstrip_crlf_eol by assumption. cbn zeta.
  assert (Hvs : vs <> []) by (intro E; subst vs; cbn in Hl; lia).
  set (full := re_split split_rx 0 (fields_text vs)).
  assert (Ef : full = concat (map (re_split split_rx 0) vs)) by (apply split_join; assumption).
  destruct names as [|n0 names']; [cbn in H2; lia|]. set (names := n0 :: names') in *.
  assert (Hgoal : (if List.length names =? List.length full then Ret full
      else if in_list n0 [ARC_URL; ARC_CONTENT_TYPE]
             then Ret (map (@rev N) (rev (re_split split_rx (List.length names - 1) (rev (fields_text vs)))))
             else Ret (re_split split_rx (List.length names - 1) (fields_text vs))) = Ret vs).
  { rewrite in_list_free. unfold names, free_first in Hp. fold names in Hp.
    destruct (bytes_eqb n0 (B "URL") || bytes_eqb n0 (B "Content-type")).
    - destruct vs as [|v0 vs']; [contradiction|]. cbn [tl] in Hp.
      cbn [map concat] in Ef. rewrite (concat_single_map _ vs') in Ef
        by (intros v Hv; apply split_plain; rewrite Forall_forall in Hp; apply Hp; exact Hv).
      destruct (Nat.eqb_spec (List.length names) (List.length full)) as [E|E].
      + f_equal. rewrite Ef in *. rewrite app_length in E. change (S (List.length vs') = List.length names) in Hl. rewrite split_single by lia. reflexivity.
      + apply (f_equal (@Ret (list bytes))). rewrite rev_fields. cbn [map rev]. unfold fields_text, re_split.
        assert (El0 : List.length names - 1 = List.length (rev (map (@rev N) vs'))) 
          by (transitivity (@List.length bytes vs'); [change (S (List.length vs') = List.length names) in Hl; lia|symmetry; etransitivity; [apply rev_length|apply map_length]]).
        rewrite El0.
        destruct (List.length (rev (map (@rev N) vs'))) eqn:El.
        { change (S (List.length vs') = List.length names) in Hl. lia. }
        rewrite <- El. rewrite split_limit.
        * change (map (@rev N) (rev (rev (map (@rev N) (v0 :: vs')))) = v0 :: vs'). apply rev_map_rev.
        * apply Forall_rev. rewrite Forall_forall in *. intros x Hx. apply in_map_iff in Hx as (y & <- & Hy). apply plain_rev, Hp, Hy.
        * change (joints (rev (map (@rev N) (v0 :: vs')))). apply joints_rev. exact Hj.
        * reflexivity.
    - destruct (exists_last Hvs) as (vs' & vl & Ev). rewrite Ev in Hp. rewrite removelast_last in Hp.
      rewrite Ev, map_app, concat_app in Ef. rewrite (concat_single_map _ vs') in Ef
        by (intros v Hv; apply split_plain; rewrite Forall_forall in Hp; apply Hp; exact Hv).
      cbn [map concat] in Ef. rewrite app_nil_r in Ef. rewrite Ev, app_length in Hl. cbn [List.length] in Hl.
      destruct (Nat.eqb_spec (List.length names) (List.length full)) as [E|E].
      + f_equal. rewrite Ef in *. rewrite app_length in E. rewrite split_single by lia. symmetry. exact Ev.
      + f_equal. unfold fields_text, re_split. rewrite Ev. replace (List.length names - 1) with (List.length vs') by lia.
        destruct (List.length vs') eqn:El; [lia|]. rewrite <- El. apply split_limit; [exact Hp|rewrite <- Ev; exact Hj|reflexivity]. }
  match goal with |- bind ?x _ = _ => replace x with (@Ret (list bytes) vs) by (symmetry; exact Hgoal) end.
  cbn [bind]. rewrite Hl, Nat.eqb_refl. reflexivity.
Qed.

(** ** words *)
Lemma split_ws_aux_plain s : forall cur, plain_value cur -> Forall plain_value (split_ws_aux cur s).
Proof.
  induction s as [|c t IH]; intros cur Hc; cbn [split_ws_aux].
  - destruct cur; [constructor|]. constructor; [apply plain_rev; exact Hc|constructor].
  - destruct (is_space c) eqn:E.
    + destruct cur; [apply IH; intros x []|]. constructor; [apply plain_rev; exact Hc|]. apply IH. intros x [].
    + apply IH. intros x [<-|Hx]; [exact E|apply Hc; exact Hx].
Qed.
Lemma words_plain s : Forall plain_value (words s).
Proof. apply split_ws_aux_plain. intros x []. Qed.
Lemma plain_trimmed v : plain_value v -> trimmed v.
Proof. intro H. split; [intros c t E|intros c t E]; apply H; rewrite E; [left; reflexivity|]. apply in_or_app. right. left. reflexivity. Qed.
Lemma split_ws_aux_space s b : forall cur, forallb is_space b = true -> split_ws_aux cur (s ++ b) = split_ws_aux cur s.
Proof.
  induction s as [|c t IH]; intros cur Hb.
  - cbn [app]. revert cur; induction b as [|d b IHb]; intro cur; [reflexivity|]. cbn [forallb] in Hb. apply andb_true_iff in Hb as [Hd Hb].
    cbn [split_ws_aux]. rewrite Hd. destruct cur; rewrite (IHb Hb); reflexivity.
  - cbn [app split_ws_aux]. rewrite !IH by exact Hb. reflexivity.
Qed.
Lemma split_ws_pre a s : forallb is_space a = true -> split_ws (a ++ s) = split_ws s.
Proof. unfold split_ws. induction a as [|c a IH]; intro H; [reflexivity|]. cbn [forallb] in H. apply andb_true_iff in H as [Hc Ha].
  cbn [app split_ws_aux]. rewrite Hc. apply IH. exact Ha. Qed.
Lemma split_ws_strip s : split_ws (strip s) = split_ws s.
Proof. destruct (strip_split s) as (a & b & E & Ha & Hb). rewrite E at 2. rewrite split_ws_pre by exact Ha.
  unfold split_ws. rewrite split_ws_aux_space by exact Hb. reflexivity. Qed.
Lemma words_eol s crlf : split_ws (strip (s ++ eol crlf)) = words s.
Proof. rewrite split_ws_strip. unfold words, split_ws. apply split_ws_aux_space, eol_space. Qed.

(** ** get_content_headers *)
Lemma arc_content_eq hs : Forall (fun h => plain_value (fst h)) hs -> forall d errs,
  arc_content_headers hs d errs = (archive_length hs d, errs ++ concat (map field_errors hs)).
Proof.
  induction hs as [|[n v] t IH]; intros H d errs; [cbn; rewrite app_nil_r; reflexivity|].
  inversion H as [|? ? Hn Ht]; subst. cbn [fst] in Hn. cbn [arc_content_headers archive_length map concat].
  unfold arc_type_rx, arc_length_rx. rewrite !name_rx_trimmed by (apply plain_trimmed; exact Hn).
  change ARC_CONTENT_TYPE with (B "Content-type"). change ARC_CONTENT_LENGTH with (B "Archive-length").
  unfold field_errors at 1. cbn [fst snd].
  destruct (same_nameb n (B "Content-type")) eqn:E1.
  - assert (E2 : same_nameb n (B "Archive-length") = false).
    { unfold same_nameb in *. apply bytes_eqb_eq in E1. rewrite E1. reflexivity. }
    rewrite E2. destruct v; rewrite (IH Ht); [rewrite <- app_assoc|]; reflexivity.
  - destruct (same_nameb n (B "Archive-length")); [|rewrite (IH Ht); reflexivity].
    destruct (py_int 10 v); rewrite (IH Ht); [|rewrite <- app_assoc]; reflexivity.
Qed.
Lemma combine_names (names vs : list bytes) : Forall plain_value names -> Forall (fun h : header => plain_value (fst h)) (combine names vs).
Proof. intro H. apply Forall_forall. intros [n v] Hin. apply in_combine_l in Hin. rewrite Forall_forall in H. apply H. exact Hin. Qed.

(** ** the first line is not blank *)
Lemma joints_word vs : 2 <= List.length vs -> joints vs -> exists c, In c (fields_text vs) /\ is_word c = true.
Proof.
  intros Hl Hj. destruct vs as [|v [|w t]]; [cbn in Hl; lia|cbn in Hl; lia|]. destruct Hj as [[H|H] _]; unfold fields_text; cbn [join].
  - unfold ends_word in H. destruct (rev v) as [|c r] eqn:E; [discriminate|]. exists c. split; [|exact H].
    apply in_or_app. left. apply in_rev. rewrite E. left. reflexivity.
  - destruct w as [|c w]; [discriminate|]. exists c. split; [|exact H]. apply in_or_app. right. right.
    destruct t; [left; reflexivity|]. left. reflexivity.
Qed.
Lemma word_not_space c : is_word c = true -> is_space c = false.
Proof. intro H. destruct (is_space c) eqn:E; [|reflexivity]. apply space_not_word in E. congruence. Qed.
Lemma rstrip_nonempty s c : In c s -> is_space c = false -> rstrip s <> [].
Proof.
  intros Hin Hc E. destruct (rstrip_split s) as (b & Es & Hb). rewrite E in Es. cbn in Es. subst b.
  rewrite forallb_forall in Hb. rewrite (Hb c Hin) in Hc. discriminate.
Qed.
Lemma crlf_only_word s c : In c s -> is_word c = true -> crlf_only s = false.
Proof.
  intros Hin Hw. unfold crlf_only. destruct s as [|x s]; [reflexivity|]. apply not_true_is_false. intro H.
  rewrite forallb_forall in H. specialize (H c Hin). unfold is_crlf in H. apply orb_true_iff in H as [H|H]; apply N.eqb_eq in H; subst c; discriminate.
Qed.

(** ** parsing one unit *)
Definition arc_names_of (p : parser) : list bytes := match p with PArc a | PMixed a => a_headers a | PWarc => [] end.
Definition unit_rec (names : list bytes) (u : unit_) : record :=
  match u with
  | UWarc w => handed w
  | UDesc vs crlf vl nl body =>
      let hs := combine (words nl) vs in
      mkrec (RArcHeader (strip vl) [fields_text vs ++ eol crlf; vl ++ eol crlf; nl ++ eol crlf]) hs
            (concat (map field_errors hs)) None CF_stream true
  | UArc vs crlf body =>
      let hs := combine names vs in
      mkrec RArc hs (concat (map field_errors hs)) None CF_stream true
  end.
Definition first_line (u : unit_) : bytes :=
  match u with
  | UWarc w => w_version w ++ CRLF
  | UDesc vs crlf _ _ _ | UArc vs crlf _ => fields_text vs ++ eol crlf
  end.
(** everything before the payload *)
Definition head_bytes (u : unit_) : bytes :=
  match u with
  | UWarc w => head_text (w_version w) (w_headers w)
  | UDesc vs crlf vl nl _ => fields_text vs ++ eol crlf ++ vl ++ eol crlf ++ nl ++ eol crlf
  | UArc vs crlf _ => fields_text vs ++ eol crlf
  end.
Lemma unit_text_head u : unit_text u = head_bytes u ++ unit_body u.
Proof. destruct u; cbn [unit_text head_bytes unit_body]; rewrite <- ?app_assoc; reflexivity. Qed.
Lemma readline_eol st s crlf x : s_eoc st = None -> no_lf s -> rest st = s ++ eol crlf ++ x ->
  stream_readline st None = (s ++ eol crlf, adv st (List.length (s ++ eol crlf))).
Proof.
  intros He Hs Hr. rewrite readline_none by exact He. rewrite take_line_hd, Hr, lines_of_eol by exact Hs. reflexivity.
Qed.
Lemma arc_parse_unit a st off names u x :
  is_arc_unit u -> unit_ok names u -> a_headers a = names -> Forall plain_value names ->
  s_eoc st = None -> rest st = head_bytes u ++ x ->
  exists a', arc_parse a (adv st (List.length (first_line u))) off (Some (first_line u)) =
    (Ret (Some (unit_rec names u), [], off), a',
     moved st (List.length (head_bytes u)) (Z.of_nat (List.length (unit_body u)))) /\
    a_headers a' = names_after names u.
Proof.
  intros Hu Hok Ha Hpn He Hr. unfold arc_parse, arc_parse_fuel. destruct u as [w|vs crlf vl nl body|vs crlf body]; [destruct Hu| |].
  - destruct Hok as (Hf & Hfd & Hvl & Hnl & Hv & Hlen). pose proof Hf as (Hl & H2 & Hj & _ & Hlf & Hcr).
    destruct (joints_word vs ltac:(lia) Hj) as (c & Hc & Hcw).
    cbn [first_line head_bytes unit_body unit_rec names_after] in *.
    assert (Hnb : arc_blank_loop (file_fuel (s_fh (adv st (List.length (fields_text vs ++ eol crlf))))) (adv st (List.length (fields_text vs ++ eol crlf))) (fields_text vs ++ eol crlf)
        = (Ret (Some (fields_text vs ++ eol crlf)), adv st (List.length (fields_text vs ++ eol crlf)))).
    { unfold file_fuel. cbn [arc_blank_loop]. assert (Hne : rstrip (fields_text vs ++ eol crlf) <> []).
      { apply (rstrip_nonempty _ c); [apply in_or_app; left; exact Hc|apply word_not_space; exact Hcw]. }
      destruct (rstrip (fields_text vs ++ eol crlf)); [contradiction|reflexivity]. }
    rewrite Hnb. change FILEDESC with (B "filedesc:").
    assert (Hsw : startswith (B "filedesc:") (fields_text vs ++ eol crlf) = true).
    { apply startswith_iff in Hfd as [t Et]. apply startswith_iff. exists (t ++ eol crlf). rewrite Et, <- app_assoc. reflexivity. }
    rewrite Hsw.
    set (st1 := adv st (List.length (fields_text vs ++ eol crlf))).
    assert (Hr1 : rest st1 = vl ++ eol crlf ++ nl ++ eol crlf ++ x).
    { apply rest_adv_app. rewrite Hr, <- !app_assoc. reflexivity. }
    rewrite (readline_eol st1 vl crlf _ He Hvl Hr1).
    set (st2 := adv st1 (List.length (vl ++ eol crlf))).
    assert (Hr2 : rest st2 = nl ++ eol crlf ++ x).
    { apply rest_adv_app. rewrite Hr1, <- !app_assoc. reflexivity. }
    rewrite (readline_eol st2 nl crlf _ He Hnl Hr2).
    rewrite words_eol. destruct (words vl) as [|v0 vt] eqn:Ew; [contradiction|]. cbn [a_headers].
    rewrite words_eol. rewrite (header_list_ok _ _ _ Hf).
    rewrite arc_content_eq by (apply combine_names, words_plain). rewrite Hlen. cbn [app].
    exists (mkarc v0 (words nl)). split; [|reflexivity].
    rewrite strip_app_r by apply eol_space. unfold moved, st2, st1. rewrite !adv_adv.
    rewrite !app_length. f_equal. f_equal; [f_equal; lia|f_equal; lia].
  - destruct Hok as (Hf & Hfd & Hlen). pose proof Hf as (Hl & H2 & Hj & _ & Hlf & Hcr).
    destruct (joints_word vs ltac:(lia) Hj) as (c & Hc & Hcw).
    cbn [first_line head_bytes unit_body unit_rec names_after] in *.
    assert (Hnb : arc_blank_loop (file_fuel (s_fh (adv st (List.length (fields_text vs ++ eol crlf))))) (adv st (List.length (fields_text vs ++ eol crlf))) (fields_text vs ++ eol crlf)
        = (Ret (Some (fields_text vs ++ eol crlf)), adv st (List.length (fields_text vs ++ eol crlf)))).
    { unfold file_fuel. cbn [arc_blank_loop]. assert (Hne : rstrip (fields_text vs ++ eol crlf) <> []).
      { apply (rstrip_nonempty _ c); [apply in_or_app; left; exact Hc|apply word_not_space; exact Hcw]. }
      destruct (rstrip (fields_text vs ++ eol crlf)); [contradiction|reflexivity]. }
    rewrite Hnb. change FILEDESC with (B "filedesc:").
    assert (Hsw : startswith (B "filedesc:") (fields_text vs ++ eol crlf) = false).
    { apply not_true_is_false. intro H. apply startswith_iff in H as [t Et].
      assert (H : startswith (B "filedesc:") (fields_text vs) = true); [|congruence].
      apply startswith_iff. exists (rstrip_crlf t).
      rewrite <- (rstrip_crlf_eol (fields_text vs) crlf Hcr Hlf), Et. unfold rstrip_crlf. rewrite rev_app_distr.
      clear. assert (G : forall r, rev (drop_while (fun c => N.eqb c 13 || N.eqb c 10) (r ++ rev (B "filedesc:"))) =
        B "filedesc:" ++ rev (drop_while (fun c => N.eqb c 13 || N.eqb c 10) r)).
      { induction r as [|d r IH]; [reflexivity|]. cbn [app drop_while]. destruct (N.eqb d 13 || N.eqb d 10); [exact IH|].
        rewrite app_comm_cons, rev_app_distr, rev_involutive. reflexivity. }
      apply G. }
    rewrite Hsw. rewrite Ha. destruct names as [|n0 names']; [cbn in H2; lia|].
    rewrite (header_list_ok _ _ _ Hf). rewrite arc_content_eq by (apply combine_names; exact Hpn). rewrite Hlen. cbn [app].
    eexists. split; [|exact Ha]. unfold moved. rewrite !app_length. reflexivity.
Qed.

(** ** reading one record with any parser *)
Definition finish (k : skind) (x : outcome parsed * stream) : outcome item * stream :=
  match x with
  | (Ret (r, errs, off), st) =>
      match k with
      | SPlain => (Ret (off, r, errs), st)
      | SGzipRecord => (Ret (None, r, errs), st)
      | SGzipFile => (Raise ENameError, st)
      end
  | (Raise e, st) => (Raise e, st)
  | (Diverge, st) => (Diverge, st)
  end.
Lemma read_record_run st b : s_eoc st = None ->
  let ls := lines_of (rest st) in
  let k := blank_lines ls in
  read_record st b = finish (s_kind st)
    (run_parser (adv st (k + List.length (first_text ls))) (item_offset (s_kind st) b (pos st + k)) (first_text ls)).
Proof.
  intros He. cbn zeta. unfold read_record. rewrite He.
  assert (Est : set_eoc st None = st) by (rewrite <- He; apply set_eoc_eta). rewrite Est.
  rewrite (skip_blank_eq (s_fh st)). change (f_rest (s_fh st)) with (rest st).
  change (set_fh st (f_advance (s_fh st) ?n)) with (adv st n).
  assert (Eo : (match s_kind st with SPlain => if b then Some (f_tell (s_fh st) + blank_lines (lines_of (rest st))) else None | _ => None end)
    = item_offset (s_kind st) b (pos st + blank_lines (lines_of (rest st)))) by (destruct (s_kind st); reflexivity).
  rewrite Eo. unfold finish. destruct (run_parser _ _ _) as [[[[r errs] off]|e|] st4]; destruct (s_kind st); reflexivity.
Qed.
Lemma first_text_not_crlf ls : crlf_only (first_text ls) = false.
Proof. induction ls as [|l ls IH]; [reflexivity|]. cbn [first_text]. destruct (crlf_only l) eqn:E; [exact IH|exact E]. Qed.
Lemma crlf_only_lists l : crlf_only l = false -> in_list l [[10%N]; CRLF; [13%N]] = false.
Proof. intro H. apply not_true_is_false. intro Hi. apply in_list_In in Hi. destruct Hi as [<-|[<-|[<-|[]]]]; discriminate. Qed.
(** the parsers do not look at the stream's parser field *)
Definition with_p {A} (p : parser) (x : outcome A * stream) : outcome A * stream := (fst x, set_parser (snd x) p).
Lemma readline_p st p n : stream_readline (set_parser st p) n =
  (fst (stream_readline st n), set_parser (snd (stream_readline st n)) p).
Proof.
  unfold stream_readline. change (bounded (set_parser st p) n) with (bounded st n). destruct st as [k f e q]. cbn.
  destruct (bounded _ n); reflexivity.
Qed.
Lemma find_version_p p fuel : forall st l off errs,
  find_version fuel (set_parser st p) l off errs = with_p p (find_version fuel st l off errs).
Proof.
  induction fuel as [|fuel IH]; intros st l off errs; [reflexivity|]. cbn [find_version].
  destruct l as [|c t]; [reflexivity|]. destruct (re_match version_rx (c :: t)); [reflexivity|].
  rewrite readline_p. destruct (stream_readline st None) as [l' st']. cbn [fst snd].
  destruct (re_test nl_rx (c :: t)); [apply IH|]. destruct (Nat.ltb _ _); [reflexivity|apply IH].
Qed.
Lemma follow_loop_p p fuel : forall st l vs errs,
  follow_loop fuel (set_parser st p) l vs errs = with_p p (follow_loop fuel st l vs errs).
Proof.
  induction fuel as [|fuel IH]; intros st l vs errs; [reflexivity|]. cbn [follow_loop].
  destruct (re_match value_rx l); [|reflexivity]. rewrite readline_p. destruct (stream_readline st None) as [l' st']. apply IH.
Qed.
Lemma header_loop_p p fuel : forall st l hs errs clen,
  header_loop fuel (set_parser st p) l hs errs clen = with_p p (header_loop fuel st l hs errs clen).
Proof.
  induction fuel as [|fuel IH]; intros st l hs errs clen; [reflexivity|]. cbn [header_loop].
  destruct l as [|c t]; [reflexivity|]. destruct (re_test nl_rx (c :: t)); [reflexivity|].
  destruct (re_match header_rx (c :: t)); [|apply IH]. rewrite readline_p. destruct (stream_readline st None) as [l' st'].
  cbn [fst snd]. rewrite follow_loop_p. destruct (follow_loop _ _ _ _ _) as [[[[vs e2] l2]|e|] st2]; cbn [with_p fst snd]; [|reflexivity|reflexivity].
  destruct (note_header _ _ _ _). apply IH.
Qed.
Lemma warc_parse_p p st off l : warc_parse (set_parser st p) off (Some l) = with_p p (warc_parse st off (Some l)).
Proof.
  unfold warc_parse, warc_parse_fuel. change (file_fuel (s_fh (set_parser st p))) with (file_fuel (s_fh st)).
  rewrite find_version_p. destruct (find_version _ _ _ _ _) as [[[x|g o e]|e|] st1]; cbn [with_p fst snd]; try reflexivity.
  destruct (in_list _ _); [|reflexivity]. rewrite readline_p. destruct (stream_readline st1 None) as [l' st'].
  cbn [fst snd]. rewrite header_loop_p. destruct (header_loop _ _ _ _ _ _) as [[[[hs e2] cl]|e0|] st2]; reflexivity.
Qed.
Lemma arc_blank_loop_p p fuel : forall st l, arc_blank_loop fuel (set_parser st p) l = with_p p (arc_blank_loop fuel st l).
Proof.
  induction fuel as [|fuel IH]; intros st l; [reflexivity|]. cbn [arc_blank_loop]. destruct (rstrip l); [|reflexivity].
  destruct l; [reflexivity|]. rewrite readline_p. destruct (stream_readline st None) as [l' st']. apply IH.
Qed.
Lemma arc_parse_p p a st off l : arc_parse a (set_parser st p) off (Some l) =
  (fst (arc_parse a st off (Some l)), set_parser (snd (arc_parse a st off (Some l))) p).
Proof.
  unfold arc_parse, arc_parse_fuel. change (file_fuel (s_fh (set_parser st p))) with (file_fuel (s_fh st)).
  rewrite arc_blank_loop_p. destruct (arc_blank_loop _ _ _) as [[[l1|]|e|] st1]; cbn [with_p fst snd]; try reflexivity.
  destruct (startswith FILEDESC l1).
  - rewrite readline_p. destruct (stream_readline st1 None) as [l2 st2]. cbn [fst snd]. rewrite readline_p. destruct (stream_readline st2 None) as [l3 st3]. cbn [fst snd].
    destruct (split_ws (strip l2)); [reflexivity|]. destruct (arc_header_list _ _); [|reflexivity|reflexivity].
    destruct (arc_content_headers _ _ _) as [[z|] er]; reflexivity.
  - destruct (a_headers a); [reflexivity|]. destruct (arc_header_list _ _); [|reflexivity|reflexivity].
    destruct (arc_content_headers _ _ _) as [z er]; reflexivity.
Qed.
Lemma set_parser_eta st : set_parser st (s_parser st) = st. Proof. destruct st; reflexivity. Qed.
Lemma set_parser_set st p q : set_parser (set_parser st p) q = set_parser st q. Proof. reflexivity. Qed.
(** the mixed parser hands the first line to one of the two parsers *)
Lemma mixed_run st a off l : crlf_only l = false ->
  run_parser (set_parser st (PMixed a)) off l =
  if startswith (B "WARC") l
  then with_p (PMixed a) (run_parser (set_parser st PWarc) off l)
  else (let '(o, st') := run_parser (set_parser st (PArc a)) off l in
        (o, set_parser st' (PMixed (match s_parser st' with PArc a' => a' | _ => a end)))).
Proof.
  intro Hl. unfold run_parser. cbn [set_parser s_parser]. fold (set_parser st (PMixed a)) (set_parser st (PArc a)) (set_parser st PWarc).
  unfold mixed_parse. unfold file_fuel. cbn [mixed_loop]. change WARC_PREFIX with (B "WARC").
  destruct l as [|c t].
  - cbn [startswith B list_ascii_of_string map]. unfold arc_parse, arc_parse_fuel. cbn. reflexivity.
  - destruct (startswith (B "WARC") (c :: t)) eqn:Ew.
    + rewrite !warc_parse_p. unfold with_p. destruct (warc_parse st off (Some (c :: t))). reflexivity.
    + rewrite (crlf_only_lists _ Hl). cbn [negb]. rewrite !arc_parse_p.
      set (X := arc_parse a st off (Some (c :: t))).
      repeat match goal with |- context [arc_parse a st off ?q] => change (arc_parse a st off q) with X end.
      clearbody X. destruct X as [[o a'] st']. reflexivity.
Qed.

(** ** reading one unit *)
Definition reads (p : parser) (u : unit_) : Prop :=
  match p with PArc _ => is_arc_unit u | PMixed _ => not_warc_like u | PWarc => match u with UWarc _ => True | _ => False end end.
Definition pkind (p : parser) : nat := match p with PWarc => 0 | PArc _ => 1 | PMixed _ => 2 end.
Definition in_force (p : parser) (names : list bytes) : Prop :=
  match p with PWarc => True | PArc a | PMixed a => a_headers a = names end.
Lemma reads_pkind p q u : pkind p = pkind q -> reads p u -> reads q u.
Proof. destruct p, q; cbn; intros; try discriminate; assumption. Qed.
Lemma unit_first names u x : unit_ok names u ->
  exists t, lines_of (head_bytes u ++ x) = first_line u :: t /\ crlf_only (first_line u) = false.
Proof.
  destruct u as [w|vs crlf vl nl body|vs crlf body]; cbn [unit_ok head_bytes first_line].
  - intros (Hv & Ho & _). unfold head_text. rewrite <- !app_assoc.
    destruct (version_known _ Hv) as (num & _ & _ & Hlf).
    eexists. split; [exact (lines_of_eol (w_version w) true _ Hlf)|]. apply version_not_crlf. exact Hv.
  - intros ((Hl & H2 & Hj & _ & Hlf & _) & _). rewrite <- !app_assoc. eexists. split; [apply lines_of_eol; exact Hlf|].
    destruct (joints_word vs ltac:(lia) Hj) as (c & Hc & Hw). apply (crlf_only_word _ c); [apply in_or_app; left; exact Hc|exact Hw].
  - intros ((Hl & H2 & Hj & _ & Hlf & _) & _). rewrite <- !app_assoc. eexists. split; [apply lines_of_eol; exact Hlf|].
    destruct (joints_word vs ltac:(lia) Hj) as (c & Hc & Hw). apply (crlf_only_word _ c); [apply in_or_app; left; exact Hc|exact Hw].
Qed.
Lemma startswith_eol p s crlf : forallb (fun c => negb (N.eqb c 13 || N.eqb c 10)) p = true ->
  startswith p (s ++ eol crlf) = startswith p s.
Proof.
  revert s; induction p as [|c p IH]; intros s H; [reflexivity|]. cbn [forallb] in H. apply andb_true_iff in H as [Hc Hp].
  destruct s as [|d s]; cbn [app startswith].
  - apply negb_true_iff, orb_false_iff in Hc as [H1 H2].
    destruct crlf; cbn [eol CRLF app startswith]; [rewrite H1|unfold LF; rewrite H2]; reflexivity.
  - rewrite IH by exact Hp. reflexivity.
Qed.
Lemma finish_p k p x : finish k (with_p p x) = with_p p (finish k x).
Proof. destruct x as [[[[r e] o]|e|] st']; destruct k; reflexivity. Qed.
Definition arc_of (p : parser) (d : arcstate) : arcstate := match p with PArc a => a | _ => d end.
(** a mixed reader does what the specific reader for the first line does *)
Lemma read_record_mixed st a b : s_eoc st = None ->
  read_record (set_parser st (PMixed a)) b =
  if startswith (B "WARC") (first_text (lines_of (rest st)))
  then with_p (PMixed a) (read_record (set_parser st PWarc) b)
  else (let '(o, st') := read_record (set_parser st (PArc a)) b in (o, set_parser st' (PMixed (arc_of (s_parser st') a)))).
Proof.
  intro He. rewrite !read_record_run by exact He. cbn zeta.
  change (rest (set_parser st ?p)) with (rest st). change (s_kind (set_parser st ?p)) with (s_kind st). change (pos (set_parser st ?p)) with (pos st).
  change (adv (set_parser st ?p) ?n) with (set_parser (adv st n) p).
  set (l := first_text (lines_of (rest st))). rewrite mixed_run by apply first_text_not_crlf.
  destruct (startswith (B "WARC") l); [apply finish_p|].
  destruct (run_parser (set_parser _ (PArc a)) _ _) as [[[[r e] o]|e|] st']; destruct (s_kind st); reflexivity.
Qed.
Lemma read_unit_arc st b names u x : s_eoc st = None -> (exists a, s_parser st = PArc a /\ a_headers a = names) -> s_kind st <> SGzipFile ->
  is_arc_unit u -> unit_ok names u -> Forall plain_value names -> rest st = head_bytes u ++ x ->
  exists a', read_record st b = (Ret (item_offset (s_kind st) b (pos st), Some (unit_rec names u), []),
     set_parser (moved st (List.length (head_bytes u)) (Z.of_nat (List.length (unit_body u)))) (PArc a')) /\
    a_headers a' = names_after names u.
Proof.
  intros He (a & Hp & Ha) Hk Hu Hok Hpn Hr. rewrite (read_record_run st b He). cbn zeta.
  destruct (unit_first names u x Hok) as (t & Et & Ec). rewrite Hr, Et. cbn [blank_lines first_text]. rewrite Ec.
  rewrite Nat.add_0_r. cbn [Nat.add]. unfold run_parser. change (s_parser (adv st _)) with (s_parser st). rewrite Hp.
  destruct (arc_parse_unit a st (item_offset (s_kind st) b (pos st)) names u x Hu Hok Ha Hpn He Hr) as (a' & E & Ha').
  rewrite E. exists a'. split; [|exact Ha']. cbn [finish]. destruct (s_kind st); [reflexivity|reflexivity|contradiction].
Qed.
Lemma read_unit_fresh st b names u x : s_eoc st = None -> in_force (s_parser st) names -> s_kind st <> SGzipFile ->
  reads (s_parser st) u -> unit_ok names u -> Forall plain_value names -> rest st = head_bytes u ++ x ->
  exists p', read_record st b = (Ret (item_offset (s_kind st) b (pos st), Some (unit_rec names u), []),
     set_parser (moved st (List.length (head_bytes u)) (Z.of_nat (List.length (unit_body u)))) p') /\
    pkind p' = pkind (s_parser st) /\ in_force p' (names_after names u).
Proof.
  intros He Hf Hk Hrd Hok Hpn Hr. destruct st as [k f e p]. cbn [s_eoc s_parser s_kind] in *. subst e.
  set (st := mkstream k f None p) in *.
  assert (Warc : forall w, u = UWarc w -> read_record (set_parser st PWarc) b =
     (Ret (item_offset k b (pos st), Some (unit_rec names u), []),
      set_parser (moved st (List.length (head_bytes u)) (Z.of_nat (List.length (unit_body u)))) PWarc)).
  { intros w ->. destruct Hok as (Hv & Ho & Hc & Hl).
    rewrite (read_head (set_parser st PWarc) b _ _ x eq_refl eq_refl Hk Hv Ho Hr). rewrite plain_entries_errors by assumption. rewrite Hl. reflexivity. }
  destruct p as [|a|a].
  - destruct u as [w|vs crlf vl nl body|vs crlf body]; [|destruct Hrd|destruct Hrd]. exists PWarc. split; [apply (Warc w eq_refl)|]. split; [reflexivity|exact I].
  - destruct (read_unit_arc st b names u x eq_refl (ex_intro _ a (conj eq_refl Hf)) Hk Hrd Hok Hpn Hr) as (a' & E & Ha').
    exists (PArc a'). split; [exact E|]. split; [reflexivity|exact Ha'].
  - destruct (unit_first names u x Hok) as (t & Et & Ec).
    pose proof (read_record_mixed st a b eq_refl) as Hm. rewrite Hr, Et in Hm. cbn [first_text] in Hm. rewrite Ec in Hm.
    change (set_parser st (PMixed a)) with st in Hm.
    assert (Harc : is_arc_unit u -> startswith (B "WARC") (first_line u) = false).
    { destruct u as [w|vs crlf vl nl body|vs crlf body]; [intros []| |]; intros _; cbn [first_line]; rewrite startswith_eol by reflexivity.
      - destruct Hok as (_ & Hfd & _). apply startswith_iff in Hfd as [t' ->]. reflexivity.
      - exact Hrd. }
    destruct u as [w|vs crlf vl nl body|vs crlf body].
    + assert (Hw : startswith (B "WARC") (first_line (UWarc w)) = true) by (cbn [first_line]; destruct Hok as ([<-|[<-|[<-|[]]]] & _); reflexivity).
      rewrite Hw, (Warc w eq_refl) in Hm. exists (PMixed a). split; [exact Hm|]. split; [reflexivity|exact Hf].
    + rewrite (Harc I) in Hm.
      destruct (read_unit_arc (set_parser st (PArc a)) b names (UDesc vs crlf vl nl body) x eq_refl (ex_intro _ a (conj eq_refl Hf)) Hk I Hok Hpn Hr) as (a' & E & Ha').
      rewrite E in Hm. exists (PMixed a'). split; [exact Hm|]. split; [reflexivity|exact Ha'].
    + rewrite (Harc I) in Hm.
      destruct (read_unit_arc (set_parser st (PArc a)) b names (UArc vs crlf body) x eq_refl (ex_intro _ a (conj eq_refl Hf)) Hk I Hok Hpn Hr) as (a' & E & Ha').
      rewrite E in Hm. exists (PMixed a'). split; [exact Hm|]. split; [reflexivity|exact Ha'].
Qed.
Lemma read_unit st start names u x b :
  at_text st start (unit_text u ++ x) -> in_force (s_parser st) names -> s_kind st <> SGzipFile ->
  reads (s_parser st) u -> unit_ok names u -> Forall plain_value names ->
  exists st1, read_record st b = (Ret (item_offset (s_kind st) b start, Some (unit_rec names u), []), st1) /\
    in_payload st1 (unit_body u) x /\ s_kind st1 = s_kind st /\ pkind (s_parser st1) = pkind (s_parser st) /\
    in_force (s_parser st1) (names_after names u) /\ file_fuel (s_fh st1) = file_fuel (s_fh st) /\
    pos st1 + List.length (unit_body u) = start + List.length (unit_text u).
Proof.
  intros Hat Hf Hk Hrd Hok Hpn. destruct (at_text_fresh _ _ _ Hat) as (st0 & Heq & He & Hr & Hpos & Hk0 & Hp0 & Hf0).
  rewrite Heq. rewrite <- Hp0 in Hf, Hrd. rewrite <- Hk0 in Hk.
  rewrite unit_text_head, <- app_assoc in Hr.
  destruct (read_unit_fresh st0 b names u _ He Hf Hk Hrd Hok Hpn Hr) as (p' & E & Hp' & Hf').
  rewrite E, Hk0, Hpos. eexists. split; [reflexivity|].
  split; [|split; [exact Hk0|split; [cbn [set_parser s_parser]; congruence|split; [exact Hf'|split]]]].
  - split; [reflexivity|]. change (rest (set_parser (moved st0 ?n ?e) p')) with (rest (adv st0 n)).
    apply rest_adv_app. exact Hr.
  - exact Hf0.
  - change (pos (set_parser (moved st0 ?n ?e) p')) with (pos st0 + n). rewrite Hpos, unit_text_head, app_length. lia.
Qed.
(** only the head is there, and too little of the payload *)
Lemma read_unit_cut st start names u x b :
  at_text st start (head_bytes u ++ x) -> in_force (s_parser st) names -> s_kind st <> SGzipFile ->
  reads (s_parser st) u -> unit_ok names u -> Forall plain_value names ->
  exists st1, read_record st b = (Ret (item_offset (s_kind st) b start, Some (unit_rec names u), []), st1) /\
    s_eoc st1 = Some (Z.of_nat (List.length (unit_body u))) /\ rest st1 = x.
Proof.
  intros Hat Hf Hk Hrd Hok Hpn. destruct (at_text_fresh _ _ _ Hat) as (st0 & Heq & He & Hr & Hpos & Hk0 & Hp0 & Hf0).
  rewrite Heq. rewrite <- Hp0 in Hf, Hrd. rewrite <- Hk0 in Hk.
  destruct (read_unit_fresh st0 b names u x He Hf Hk Hrd Hok Hpn Hr) as (p' & E & Hp' & Hf').
  rewrite E, Hk0, Hpos. eexists. split; [reflexivity|]. split; [reflexivity|].
  change (rest (set_parser (moved st0 ?n ?e) p')) with (rest (adv st0 n)). apply rest_adv_app. exact Hr.
Qed.
Lemma read_units_end st start b : at_text st start [] -> s_kind st <> SGzipFile -> exists st1,
  read_record st b = (Ret (item_offset (s_kind st) b start, None, []), st1).
Proof.
  intros Hat Hk. destruct (at_text_fresh _ _ _ Hat) as (st0 & Heq & He & Hr & Hpos & Hk0 & Hp0 & Hf0).
  rewrite Heq, (read_record_run st0 b He). cbn zeta. rewrite Hr. cbn [lines_of blank_lines first_text List.length Nat.add].
  rewrite Nat.add_0_r, Hk0, Hpos. unfold run_parser. change (s_parser (adv st0 0)) with (s_parser st0).
  destruct (s_parser st0) as [|a|a]; unfold warc_parse, warc_parse_fuel, arc_parse, arc_parse_fuel, mixed_parse, file_fuel; cbn [find_version arc_blank_loop mixed_loop rstrip];
    destruct (s_kind st); try contradiction; eexists; reflexivity.
Qed.
Lemma names_after_plain names u : Forall plain_value names -> Forall plain_value (names_after names u).
Proof. destruct u; intro H; try exact H. apply words_plain. Qed.

(** ** the loop *)
Definition uvisits {S} (body : S -> stream -> item -> outcome bool * S * stream)
    (step : S -> option nat -> list bytes -> unit_ -> S) (fin : S -> option nat -> S) (P : list bytes -> unit_ -> Prop) : Prop :=
  (forall s st names u after off, P names u -> in_payload st (unit_body u) after ->
     exists st', body s st (off, Some (unit_rec names u), []) = (Ret true, step s off names u, st') /\
                 used st (List.length (unit_body u)) st') /\
  (forall s st off, exists st', body s st (off, None, []) = (Ret true, fin s off, st')).
Fixpoint all_units (P : list bytes -> unit_ -> Prop) (names : list bytes) (a : units) : Prop :=
  match a with [] => True | (u, _) :: t => P names u /\ all_units P (names_after names u) t end.
Fixpoint uvisit {S} (step : S -> option nat -> list bytes -> unit_ -> S) (fin : S -> option nat -> S)
    (show : nat -> option nat) (limit : option nat) (start : nat) (names : list bytes) (a : units) (s : S) : S :=
  match limit with
  | Some O => s
  | _ => match a with
         | [] => fin s (show start)
         | (u, sep) :: t =>
             uvisit step fin show (next_limit limit) (start + List.length (unit_text u) + List.length sep)
                    (names_after names u) t (step s (show start) names u)
         end
  end.
Lemma units_text_cons u s a : units_text ((u, s) :: a) = unit_text u ++ s ++ units_text a.
Proof. unfold units_text. cbn [map concat fst snd]. rewrite <- app_assoc. reflexivity. Qed.
Lemma read_loop_units {S} (body : S -> stream -> item -> outcome bool * S * stream) step fin P a :
  forall fuel limit b s st start names,
  uvisits body step fin P -> units_ok names a -> all_units P names a -> Forall plain_value names -> List.length a < fuel ->
  at_text st start (units_text a) -> in_force (s_parser st) names -> Forall (fun x => reads (s_parser st) (fst x)) a -> s_kind st <> SGzipFile ->
  exists st', read_loop fuel limit b body s st =
    (Ret tt, uvisit step fin (item_offset (s_kind st) b) limit start names a s, st').
Proof.
  induction a as [|[u sep] a IH]; intros fuel limit b s st start names Hv Hok HP Hpn Hfu Hat Hf Hrd Hk.
  - destruct fuel as [|fuel]; [cbn in Hfu; lia|]. cbn [read_loop uvisit].
    destruct (read_units_end st start b Hat Hk) as (st1 & E). rewrite E.
    destruct Hv as [_ Hfin]. destruct (Hfin s st1 (item_offset (s_kind st) b start)) as [st2 E2].
    rewrite E2. cbn [snd fst]. destruct limit as [[|n]|]; eauto.
  - destruct fuel as [|fuel]; [cbn in Hfu; lia|]. cbn [read_loop uvisit].
    destruct Hok as (Hu & Hsep & Hok'). destruct HP as [Pu HP']. inversion Hrd as [|? ? Hru Hrd']; subst. cbn [fst] in Hru.
    rewrite units_text_cons in Hat.
    destruct (read_unit st start names u _ b Hat Hf Hk Hru Hu Hpn) as (st1 & E & Hi & Hk1 & Hp1 & Hf1 & Hfu1 & Hpos1).
    rewrite E. pose proof Hv as [Hstep Hfin].
    destruct (Hstep s st1 names u _ (item_offset (s_kind st) b start) Pu Hi) as (st2 & E2 & Hus).
    rewrite E2. cbn [snd fst]. destruct (used_payload _ _ _ _ Hi Hus) as (l & _ & Hp2 & Hk2 & _).
    assert (Hat2 : at_text st2 (start + List.length (unit_text u) + List.length sep) (units_text a)).
    { apply (at_text_next st1 (unit_body u) st2 sep); try assumption. lia. }
    destruct (IH fuel (next_limit limit) b (step s (item_offset (s_kind st) b start) names u) st2 _ (names_after names u) Hv Hok' HP'
                (names_after_plain _ _ Hpn) ltac:(cbn in Hfu; lia) Hat2) as [st' E'].
    + rewrite Hp2. exact Hf1.
    + rewrite Forall_forall in *. intros y Hy. apply (reads_pkind (s_parser st)); [congruence|]. apply Hrd'. exact Hy.
    + congruence.
    + rewrite Hk2, Hk1 in E'. change (match limit with Some (Datatypes.S n) => Some n | _ => limit end) with (next_limit limit).
      rewrite E'. destruct limit as [[|n]|]; eauto.
Qed.
Lemma unit_text_nonempty names u : unit_ok names u -> 0 < List.length (unit_text u).
Proof.
  intro H. destruct (unit_first names u [] H) as (t & Et & _). rewrite app_nil_r in Et. rewrite unit_text_head, app_length.
  destruct (head_bytes u); [discriminate|]. cbn. lia.
Qed.
Lemma units_text_records a : forall names, units_ok names a -> List.length a <= List.length (units_text a).
Proof. induction a as [|[u s] a IH]; intros names H; [cbn; lia|]. destruct H as (Hu & _ & H). rewrite units_text_cons, !app_length.
  pose proof (unit_text_nonempty _ _ Hu). pose proof (IH _ H). cbn [List.length]. lia. Qed.
Theorem for_read_records_units {S} (body : S -> stream -> item -> outcome bool * S * stream) step fin P a limit b s st start names :
  uvisits body step fin P -> units_ok names a -> all_units P names a -> Forall plain_value names ->
  at_text st start (units_text a) -> in_force (s_parser st) names -> Forall (fun x => reads (s_parser st) (fst x)) a -> s_kind st <> SGzipFile ->
  exists st', for_read_records limit b body s st =
    (Ret tt, uvisit step fin (item_offset (s_kind st) b) limit start names a s, st').
Proof.
  intros Hv Hok HP Hpn Hat Hf Hrd Hk. apply (read_loop_units body step fin P); try assumption.
  destruct (at_text_fresh _ _ _ Hat) as (st0 & _ & _ & Hr & _ & _ & _ & Hf0).
  rewrite <- Hf0. pose proof (rest_fuel st0) as H. rewrite Hr in H. pose proof (units_text_records _ _ Hok). lia.
Qed.
(** iteration *)
Definition uiterates {S} (body : S -> stream -> record -> outcome unit * S * stream)
    (step : S -> list bytes -> unit_ -> S) (P : list bytes -> unit_ -> Prop) : Prop :=
  forall s st names u after, P names u -> in_payload st (unit_body u) after ->
     exists st', body s st (unit_rec names u) = (Ret tt, step s names u, st') /\ used st (List.length (unit_body u)) st'.
Fixpoint uiter {S} (step : S -> list bytes -> unit_ -> S) (names : list bytes) (a : units) (s : S) : S :=
  match a with [] => s | (u, _) :: t => uiter step (names_after names u) t (step s names u) end.
Lemma iter_loop_units {S} (body : S -> stream -> record -> outcome unit * S * stream) step P a :
  forall fuel s st start names,
  uiterates body step P -> units_ok names a -> all_units P names a -> Forall plain_value names -> List.length a < fuel ->
  at_text st start (units_text a) -> in_force (s_parser st) names -> Forall (fun x => reads (s_parser st) (fst x)) a -> s_kind st <> SGzipFile ->
  exists st', iter_loop fuel body s st = (Ret tt, uiter step names a s, st').
Proof.
  induction a as [|[u sep] a IH]; intros fuel s st start names Hv Hok HP Hpn Hfu Hat Hf Hrd Hk.
  - destruct fuel as [|fuel]; [cbn in Hfu; lia|]. cbn [iter_loop uiter].
    destruct (read_units_end st start false Hat Hk) as (st1 & E). rewrite E. eauto.
  - destruct fuel as [|fuel]; [cbn in Hfu; lia|]. cbn [iter_loop uiter].
    destruct Hok as (Hu & Hsep & Hok'). destruct HP as [Pu HP']. inversion Hrd as [|? ? Hru Hrd']; subst. cbn [fst] in Hru.
    rewrite units_text_cons in Hat.
    destruct (read_unit st start names u _ false Hat Hf Hk Hru Hu Hpn) as (st1 & E & Hi & Hk1 & Hp1 & Hf1 & Hfu1 & Hpos1).
    rewrite E. destruct (Hv s st1 names u _ Pu Hi) as (st2 & E2 & Hus).
    rewrite E2. destruct (used_payload _ _ _ _ Hi Hus) as (l & _ & Hp2 & Hk2 & _).
    apply (IH fuel _ st2 (start + List.length (unit_text u) + List.length sep)); try assumption.
    + apply names_after_plain. exact Hpn.
    + cbn in Hfu; lia.
    + apply (at_text_next st1 (unit_body u) st2 sep); try assumption. lia.
    + rewrite Hp2. exact Hf1.
    + rewrite Forall_forall in *. intros y Hy. apply (reads_pkind (s_parser st)); [congruence|]. apply Hrd'. exact Hy.
    + congruence.
Qed.
Theorem for_records_units {S} (body : S -> stream -> record -> outcome unit * S * stream) step P a s st start names :
  uiterates body step P -> units_ok names a -> all_units P names a -> Forall plain_value names ->
  at_text st start (units_text a) -> in_force (s_parser st) names -> Forall (fun x => reads (s_parser st) (fst x)) a -> s_kind st <> SGzipFile ->
  exists st', for_records body s st = (Ret tt, uiter step names a s, st').
Proof.
  intros Hv Hok HP Hpn Hat Hf Hrd Hk. apply (iter_loop_units body step P a _ s st start names); try assumption.
  destruct (at_text_fresh _ _ _ Hat) as (st0 & _ & _ & Hr & _ & _ & _ & Hf0).
  rewrite <- Hf0. pose proof (rest_fuel st0) as H. rewrite Hr in H. pose proof (units_text_records _ _ Hok). lia.
Qed.
