(** Properties C26 - C30: ARC archives and mixed archives. *)
From Verif Require Export ArcFacts PropsRead.
From Coq Require Import String List.
Open Scope list_scope.

(** ** looking at everything *)
Definition ulook_step (acc : list useen) (off : option nat) (names : list bytes) (u : unit_) : list useen := acc ++ [seen_unit names off u].
Definition ulook_fin (acc : list useen) (off : option nat) : list useen := acc ++ [USeenEnd off []].
Lemma unit_rec_fields names u : r_content (unit_rec names u) = None /\ r_cf (unit_rec names u) = CF_stream.
Proof. destruct u; split; reflexivity. Qed.
Lemma ulook_visits : uvisits ulook ulook_step ulook_fin (fun _ _ => True).
Proof.
  split.
  - intros s st names u after off _ Hi. unfold ulook. destruct (unit_rec_fields names u) as [H1 H2].
    rewrite (rec_content_payload _ st _ after H1 H2 Hi). eexists. split; [|apply used_all].
    unfold ulook_step. do 3 f_equal. f_equal. destruct u; cbn; unfold rec_type, get_header, ct_name; cbn; rewrite ?lookup_first; reflexivity.
  - intros s st off. eexists. reflexivity.
Qed.
Lemma uvisit_look show a : forall start names acc,
  uvisit ulook_step ulook_fin show None start names a acc = acc ++ seen_units show start names a.
Proof.
  induction a as [|[u sep] a IH]; intros start names acc; cbn [uvisit seen_units]; [reflexivity|].
  rewrite IH. unfold ulook_step. rewrite <- app_assoc. reflexivity.
Qed.
Lemma all_units_true a : forall names, all_units (fun _ _ => True) names a.
Proof. induction a as [|[u s] a IH]; intro names; [exact I|]. split; [exact I|apply IH]. Qed.
Lemma new_at k f p x : f_rest f = x -> at_text (new_stream k f p) (f_pos f) x.
Proof. intro H. left. split; [reflexivity|]. exists []. split; [exact H|]. split; [apply separator_ok, separator_nil|]. change (f_pos f + 0 = f_pos f). lia. Qed.
Lemma look_units k p a text strict : units_ok [] a -> Forall (fun x => reads p (fst x)) a ->
  in_force p [] -> k <> SGzipFile -> text = units_text a ->
  exists st', for_read_records None true ulook [] (new_stream k (mkfile text 0 strict) p) =
    (Ret tt, seen_units (item_offset k true) 0 [] a, st').
Proof.
  intros Hok Hrd Hp Hk ->.
  destruct (for_read_records_units ulook ulook_step ulook_fin (fun _ _ => True) a None true [] (new_stream k (mkfile (units_text a) 0 strict) p) 0 [])
    as [st' E]; try assumption.
  - apply ulook_visits.
  - apply all_units_true.
  - constructor.
  - apply (new_at k (mkfile (units_text a) 0 strict)). reflexivity.
  - exists st'. rewrite E, uvisit_look. reflexivity.
Qed.

(** ** C26 *)
Theorem C26_arc_archive_is_read_completely : forall (a : units) (strict : bool),
  units_ok [] a -> Forall (fun x => is_arc_unit (fst x)) a ->
  exists st', for_read_records None true ulook [] (new_stream SPlain (mkfile (units_text a) 0 strict) (PArc arc_init)) =
    (Ret tt, seen_units Some 0 [] a, st').
Proof. intros a strict Hok Ha. apply (look_units SPlain (PArc arc_init) a); auto; [reflexivity|discriminate]. Qed.
(** the same from a compressed file, without offsets *)
Theorem C26_compressed_arc : forall (gunzip : bytes -> bytes) (a : units) (f : file) (named : bool),
  units_ok [] a -> Forall (fun x => is_arc_unit (fst x)) a -> gunzip (f_rest f) = units_text a ->
  exists st st', open_stream gunzip AArc named GRecord f = Ret st /\
    for_read_records None true ulook [] st = (Ret tt, seen_units (fun _ => None) 0 [] a, st').
Proof.
  intros gunzip a f named Hok Ha Hg. eexists.
  destruct (look_units SGzipRecord (PArc arc_init) a (gunzip (f_rest f)) true Hok Ha eq_refl ltac:(discriminate) Hg) as [st' E].
  exists st'. split; [reflexivity|exact E].
Qed.
(** offsets: each record's offset is where its header line starts *)
Fixpoint unit_start (a : units) (i : nat) : nat :=
  match i, a with
  | S i', (u, s) :: t => List.length (unit_text u) + List.length s + unit_start t i'
  | _, _ => 0
  end.
Lemma unit_start_text a : forall i, unit_start a i = List.length (units_text (firstn i a)).
Proof. induction a as [|[u s] a IH]; intros [|i]; try reflexivity. cbn [unit_start firstn]. rewrite units_text_cons, !app_length, IH. lia. Qed.
Theorem C26_offsets_exact : forall (a : units) (i : nat) (u : unit_) (s : bytes) (names : list bytes),
  nth_error a i = Some (u, s) ->
  exists before after names',
    units_text a = before ++ unit_text u ++ s ++ after /\
    nth_error (seen_units Some 0 names a) i = Some (seen_unit names' (Some (List.length before)) u).
Proof.
  assert (G : forall a i start names u s, nth_error a i = Some (u, s) -> exists before after names',
    units_text a = before ++ unit_text u ++ s ++ after /\
    nth_error (seen_units Some start names a) i = Some (seen_unit names' (Some (start + List.length before)) u)).
  { induction a as [|[u0 s0] a IH]; intros [|i] start names u s H; try discriminate.
    - cbn in H. injection H as -> ->. exists [], (units_text a), names. rewrite units_text_cons. cbn [List.length]. rewrite Nat.add_0_r. split; reflexivity.
    - cbn [nth_error] in H. destruct (IH i (start + List.length (unit_text u0) + List.length s0) (names_after names u0) u s H) as (b & af & n' & E1 & E2).
      exists (unit_text u0 ++ s0 ++ b), af, n'. rewrite units_text_cons, E1, <- !app_assoc. split; [reflexivity|].
      cbn [seen_units nth_error]. rewrite E2. rewrite !app_length. do 3 f_equal. lia. }
  intros a i u s names H. destruct (G a i 0 names u s H) as (b & af & n' & H1 & H2). exists b, af, n'. split; assumption.
Qed.
(** reads stay inside the record and never disturb the next one *)
Fixpoint unit_items (start : nat) (names : list bytes) (a : units) : list item :=
  match a with
  | [] => [(Some start, None, [])]
  | (u, s) :: t => (Some start, Some (unit_rec names u), [])
      :: unit_items (start + List.length (unit_text u) + List.length s) (names_after names u) t
  end.
Lemma session_units a : forall uses st start names,
  units_ok names a -> Forall plain_value names -> at_text st start (units_text a) -> in_force (s_parser st) names ->
  Forall (fun x => reads (s_parser st) (fst x)) a -> s_kind st = SPlain ->
  Forall (Forall limit_ok) uses -> List.length uses <= List.length a ->
  exists st', session true uses st =
    (Ret (combine (unit_items start names a) (map (fun p => pieces (fst p) (unit_body (fst (snd p)))) (combine uses a))), st').
Proof.
  induction a as [|[u s] a IH]; intros uses st start names Hok Hpn Hat Hf Hrd Hk Hu Hl.
  - destruct uses; [|cbn in Hl; lia]. cbn. eauto.
  - destruct uses as [|ops uses]; [cbn; eauto|]. cbn [session combine map unit_items fst snd].
    destruct Hok as (Huo & Hs & Hok'). inversion Hrd as [|? ? Hru Hrd']; subst. inversion Hu as [|? ? Ho Hu']; subst. cbn [fst] in Hru.
    rewrite units_text_cons in Hat.
    destruct (read_unit st start names u _ true Hat Hf ltac:(congruence) Hru Huo Hpn) as (st1 & E & Hi & Hk1 & Hp1 & Hf1 & _ & Hpos1).
    rewrite E. destruct (run_cops_pieces st1 (unit_body u) _ ops Hi Ho) as (st2 & E2 & Hus). rewrite E2.
    destruct (used_payload _ _ _ _ Hi Hus) as (l & _ & Hp2 & Hk2 & _).
    destruct (IH uses st2 (start + List.length (unit_text u) + List.length s) (names_after names u) Hok') as [st' E'].
    + apply names_after_plain. exact Hpn.
    + apply (at_text_next st1 (unit_body u) st2 s); try assumption. lia.
    + rewrite Hp2. exact Hf1.
    + rewrite Forall_forall in *. intros y Hy. apply (reads_pkind (s_parser st)); [congruence|]. apply Hrd'. exact Hy.
    + congruence.
    + exact Hu'.
    + cbn in Hl. lia.
    + rewrite E'. rewrite Hk. eexists. reflexivity.
Qed.
Theorem C26_reads_stay_inside : forall (a : units) (uses : list (list cop)) (strict : bool),
  units_ok [] a -> Forall (fun x => is_arc_unit (fst x)) a -> Forall (Forall limit_ok) uses -> List.length uses <= List.length a ->
  exists got st', session true uses (new_stream SPlain (mkfile (units_text a) 0 strict) (PArc arc_init)) = (Ret got, st') /\
    map fst got = firstn (List.length uses) (unit_items 0 [] a) /\
    map snd got = map (fun p => pieces (fst p) (unit_body (fst (snd p)))) (combine uses a).
Proof.
  intros a uses strict Hok Ha Hu Hl.
  destruct (session_units a uses (new_stream SPlain (mkfile (units_text a) 0 strict) (PArc arc_init)) 0 [] Hok) as [st' E]; auto.
  { apply (new_at SPlain (mkfile (units_text a) 0 strict)). reflexivity. }
  { reflexivity. }
  do 2 eexists. split; [exact E|].
  assert (G : forall A C (l : list A) (m : list C), List.length m <= List.length l -> map fst (combine l m) = firstn (List.length m) l /\ map snd (combine l m) = m).
  { clear. intros A C. induction l as [|x l IH]; intros [|y m] H; try (split; reflexivity); [cbn in H; lia|]. cbn [combine map fst snd List.length firstn].
    destruct (IH m) as [H1 H2]; [simpl in H; lia|]. rewrite H1, H2. split; reflexivity. }
  assert (Hi : forall s n a, List.length (unit_items s n a) = S (List.length a)).
  { clear. intros s n a; revert s n; induction a as [|[w x] a IH]; intros s n; [reflexivity|]. cbn [unit_items List.length]. rewrite IH. reflexivity. }
  destruct (G _ _ (unit_items 0 [] a) (map (fun p => pieces (fst p) (unit_body (fst (snd p)))) (combine uses a))) as [G1 G2].
  { rewrite map_length, combine_length, Hi. lia. }
  rewrite G1, G2. rewrite map_length, combine_length. split; [|reflexivity]. f_equal. lia.
Qed.
(** the same when something else follows the records *)
Lemma session_units_then a : forall uses st start names suffix,
  units_ok names a -> Forall plain_value names -> at_text st start (units_text a ++ suffix) -> in_force (s_parser st) names ->
  Forall (fun x => reads (s_parser st) (fst x)) a -> s_kind st = SPlain ->
  Forall (Forall limit_ok) uses -> List.length uses = List.length a ->
  exists st', session true uses st =
    (Ret (combine (unit_items start names a) (map (fun p => pieces (fst p) (unit_body (fst (snd p)))) (combine uses a))), st') /\
    at_text st' (start + List.length (units_text a)) suffix /\ in_force (s_parser st') (fold_left (fun n x => names_after n (fst x)) a names) /\
    pkind (s_parser st') = pkind (s_parser st) /\ s_kind st' = SPlain /\ Forall plain_value (fold_left (fun n x => names_after n (fst x)) a names).
Proof.
  induction a as [|[u s] a IH]; intros uses st start names suffix Hok Hpn Hat Hf Hrd Hk Hu Hl.
  - destruct uses; [|discriminate]. exists st. cbn. rewrite Nat.add_0_r. repeat split; assumption.
  - destruct uses as [|ops uses]; [discriminate|]. cbn [session combine map unit_items fst snd fold_left].
    destruct Hok as (Huo & Hs & Hok'). inversion Hrd as [|? ? Hru Hrd']; subst. inversion Hu as [|? ? Ho Hu']; subst. cbn [fst] in Hru.
    rewrite units_text_cons in Hat. rewrite <- !app_assoc in Hat.
    destruct (read_unit st start names u _ true Hat Hf ltac:(congruence) Hru Huo Hpn) as (st1 & E & Hi & Hk1 & Hp1 & Hf1 & _ & Hpos1).
    rewrite E. destruct (run_cops_pieces st1 (unit_body u) _ ops Hi Ho) as (st2 & E2 & Hus). rewrite E2.
    destruct (used_payload _ _ _ _ Hi Hus) as (l & _ & Hp2 & Hk2 & _).
    destruct (IH uses st2 (start + List.length (unit_text u) + List.length s) (names_after names u) suffix Hok') as (st' & E' & A1 & A2 & A3 & A4 & A5).
    + apply names_after_plain. exact Hpn.
    + apply (at_text_next st1 (unit_body u) st2 s); try assumption. lia.
    + rewrite Hp2. exact Hf1.
    + rewrite Forall_forall in *. intros y Hy. apply (reads_pkind (s_parser st)); [congruence|]. apply Hrd'. exact Hy.
    + congruence.
    + exact Hu'.
    + cbn in Hl. lia.
    + rewrite E'. rewrite Hk. exists st'. split; [reflexivity|]. rewrite units_text_cons, !app_length.
      replace (start + (List.length (unit_text u) + (List.length s + List.length (units_text a)))) with (start + List.length (unit_text u) + List.length s + List.length (units_text a)) by lia.
      repeat split; try assumption. congruence.
Qed.
Lemma unit_items_last a u : forall start names, 
  nth_error (unit_items start names (a ++ [(u, [])])) (List.length a) =
  Some (Some (start + List.length (units_text a)), Some (unit_rec (fold_left (fun n x => names_after n (fst x)) a names) u), []).
Proof.
  induction a as [|[w x] a IH]; intros start names; [cbn; rewrite Nat.add_0_r; reflexivity|].
  cbn [app List.length unit_items nth_error fold_left fst]. rewrite IH, units_text_cons, !app_length. do 4 f_equal. lia.
Qed.
Lemma unit_items_first a u : forall start names, firstn (List.length a) (unit_items start names (a ++ [(u, [])])) = firstn (List.length a) (unit_items start names a).
Proof. induction a as [|[w x] a IH]; intros start names; [reflexivity|]. cbn [app List.length unit_items firstn]. rewrite IH. reflexivity. Qed.
Lemma units_ok_snoc a u s : forall names, units_ok names (a ++ [(u, s)]) -> units_ok names a /\ unit_ok (fold_left (fun n x => names_after n (fst x)) a names) u.
Proof.
  induction a as [|[w x] a IH]; intros names H; [destruct H as [H _]; split; [exact I|exact H]|]. destruct H as (H1 & H2 & H3).
  destruct (IH _ H3) as [K1 K2]. split; [split; [exact H1|split; [exact H2|exact K1]]|exact K2].
Qed.

(** a truncated last record is detected: [a] is read as usual, the record [u] that ends too soon is
    handed out with its headers, and after any reads of its content the next read raises *)
Theorem C26_truncated_payload_detected : forall (a : units) (u : unit_) (have : nat) (uses : list (list cop)) (last : list cop) (strict : bool),
  units_ok [] (a ++ [(u, [])]) -> Forall (fun x => is_arc_unit (fst x)) a -> is_arc_unit u -> have < List.length (unit_body u) ->
  Forall (Forall limit_ok) uses -> List.length uses = List.length a -> Forall limit_ok last ->
  let text := units_text a ++ firstn (List.length (unit_text u) - List.length (unit_body u) + have) (unit_text u) in
  exists got it ds st1 st2 st3,
    session true uses (new_stream SPlain (mkfile text 0 strict) (PArc arc_init)) = (Ret got, st1) /\
    map fst got = firstn (List.length a) (unit_items 0 [] (a ++ [(u, [])])) /\
    map snd got = map (fun p => pieces (fst p) (unit_body (fst (snd p)))) (combine uses a) /\
    read_record st1 true = (Ret it, st2) /\ nth_error (unit_items 0 [] (a ++ [(u, [])])) (List.length a) = Some it /\
    run_cops st2 last = (Ret ds, st3) /\
    fst (read_record st3 true) = Raise E_short.
Proof.
  intros a u have uses last strict Hok Ha Au Hh Hu Hl Hlast text. destruct (units_ok_snoc a u [] [] Hok) as [Hoka Hoku].
  assert (Et : text = units_text a ++ head_bytes u ++ firstn have (unit_body u)).
  { unfold text. f_equal. rewrite unit_text_head, app_length.
    replace (List.length (head_bytes u) + List.length (unit_body u) - List.length (unit_body u) + have) with (List.length (head_bytes u) + have) by lia.
    rewrite firstn_app_2. reflexivity. }
  destruct (session_units_then a uses (new_stream SPlain (mkfile text 0 strict) (PArc arc_init)) 0 [] (head_bytes u ++ firstn have (unit_body u)) Hoka) as (st1 & E & A1 & A2 & A3 & A4 & A5); auto.
  { apply (new_at SPlain (mkfile text 0 strict)). exact Et. }
  { reflexivity. }
  assert (Hrd : reads (s_parser st1) u) by (apply (reads_pkind (PArc arc_init)); [symmetry; exact A3|exact Au]).
  destruct (read_unit_cut st1 _ _ u (firstn have (unit_body u)) true A1 A2) as (st2 & E2 & He2 & Hr2).
  { rewrite A4. discriminate. } { exact Hrd. } { exact Hoku. } { exact A5. }
  destruct (run_cops_short last st2 (List.length (unit_body u)) He2) as (ds & st3 & e' & E3 & He3 & Hr3).
  { rewrite Hr2, firstn_length. lia. } { exact Hlast. }
  assert (G : forall A C (l : list A) (m : list C), List.length m <= List.length l -> map fst (combine l m) = firstn (List.length m) l /\ map snd (combine l m) = m).
  { clear. intros A C. induction l as [|x l IH]; intros [|y m] H; try (split; reflexivity); [cbn in H; lia|]. cbn [combine map fst snd List.length firstn].
    destruct (IH m) as [H1 H2]; [simpl in H; lia|]. rewrite H1, H2. split; reflexivity. }
  assert (Hi : forall s n a, List.length (unit_items s n a) = S (List.length a)).
  { clear. intros s n a; revert s n; induction a as [|[w x] a IH]; intros s n; [reflexivity|]. cbn [unit_items List.length]. rewrite IH. reflexivity. }
  destruct (G _ _ (unit_items 0 [] a) (map (fun p => pieces (fst p) (unit_body (fst (snd p)))) (combine uses a))) as [G1 G2].
  { rewrite map_length, combine_length, Hi. lia. }
  do 2 eexists. exists ds, st1, st2, st3. split; [exact E|]. split; [|split; [|split; [|split; [|split]]]].
  - rewrite G1, map_length, combine_length, Hl, Nat.min_id. symmetry. apply unit_items_first.
  - exact G2.
  - exact E2.
  - rewrite unit_items_last, A4. reflexivity.
  - exact E3.
  - destruct (read_record_short st3 true e' He3 Hr3) as [st4 ->]. reflexivity.
Qed.

(** ** C27 *)
(** wherever the filedesc record is: [a] are the records before it (whose contents are read in any
    way), [after] is anything *)
Theorem C27_raw_reproduces_the_filedesc : forall (a : units) (vs : list bytes) (crlf : bool) (vl nl body after : bytes) (uses : list (list cop)) (strict : bool),
  let u := UDesc vs crlf vl nl body in
  units_ok [] (a ++ [(u, [])]) -> Forall (fun x => is_arc_unit (fst x)) a -> Forall (Forall limit_ok) uses -> List.length uses = List.length a ->
  exists got st1 r st2 st3 r2,
    session true uses (new_stream SPlain (mkfile (units_text a ++ unit_text u ++ after) 0 strict) (PArc arc_init)) = (Ret got, st1) /\
    read_record st1 true = (Ret (Some (List.length (units_text a)), Some r, []), st2) /\
    arc_raw r st2 = (Ret (unit_text u), r2, st3).
Proof.
  intros a vs crlf vl nl body after uses strict u Hok Ha Hu Hl. destruct (units_ok_snoc a u [] [] Hok) as [Hoka Hoku].
  destruct (session_units_then a uses (new_stream SPlain (mkfile (units_text a ++ unit_text u ++ after) 0 strict) (PArc arc_init)) 0 [] (unit_text u ++ after) Hoka) as (st1 & E & A1 & A2 & A3 & A4 & A5); auto.
  { apply (new_at SPlain (mkfile (units_text a ++ unit_text u ++ after) 0 strict)). reflexivity. }
  { reflexivity. }
  assert (Hrd : reads (s_parser st1) u) by (apply (reads_pkind (PArc arc_init)); [symmetry; exact A3|exact I]).
  destruct (read_unit st1 _ _ u after true A1 A2) as (st2 & E1 & Hi & _).
  { rewrite A4. discriminate. } { exact Hrd. } { exact Hoku. } { exact A5. }
  rewrite A4 in E1. do 3 eexists. exists st2. do 2 eexists. split; [exact E|]. split; [exact E1|]. unfold arc_raw.
  match goal with |- context [r_class ?r] => change (r_class r) with (RArcHeader (strip vl) [fields_text vs ++ eol crlf; vl ++ eol crlf; nl ++ eol crlf]); set (r0 := r) end. cbn iota.
  rewrite (rec_content_payload r0 st2 body after eq_refl eq_refl Hi). f_equal. f_equal. f_equal. cbn [concat unit_text u].
  rewrite app_nil_r, <- !app_assoc. reflexivity.
Qed.

(** ** the blank-line loop *)
Fixpoint ws_skip (ls : list bytes) : list bytes :=
  match ls with
  | [] => []
  | l :: t => if forallb is_space l then ws_skip t else ls
  end.
Lemma rstrip_blank l : rstrip l = [] <-> forallb is_space l = true.
Proof.
  split.
  - intro H. destruct (rstrip_split l) as (b & E & Hb). rewrite H in E. cbn in E. subst. exact Hb.
  - intro H. destruct (rstrip l) as [|c t] eqn:E; [reflexivity|]. exfalso.
    unfold rstrip in E. rewrite drop_while_all in E; [discriminate|]. rewrite forallb_forall in *. intros x Hx. apply H, in_rev, Hx.
Qed.
Lemma arc_blank_eq ls : forall fuel st, s_eoc st = None -> lines_of (rest st) = ls -> List.length ls < fuel ->
  exists n, arc_blank_loop fuel (adv st (List.length (hd [] ls))) (hd [] ls) =
    (Ret (match ws_skip ls with [] => None | l :: _ => Some l end), adv st n) /\
    lines_of (rest (adv st n)) = tl (ws_skip ls).
Proof.
  induction ls as [|l t IH]; intros fuel st He Hl Hf; destruct fuel as [|fuel]; try (cbn in Hf; lia).
  - exists 0. cbn [hd List.length arc_blank_loop ws_skip tl]. split; [reflexivity|]. rewrite adv_0. exact Hl.
  - destruct (readline_lines st He) as [_ Ht]. rewrite Hl in Ht. cbn [hd tl] in Ht |- *. cbn [arc_blank_loop ws_skip].
    destruct (forallb is_space l) eqn:Eb.
    + rewrite (proj2 (rstrip_blank l) Eb).
      assert (Hne : l <> []) by (apply (lines_one_line (rest st)); rewrite Hl; left; reflexivity).
      destruct l as [|c l']; [contradiction|]. set (l := c :: l') in *. set (st1 := adv st (List.length l)) in *.
      destruct (readline_lines st1 He) as [Er _]. rewrite Er, Ht.
      destruct (IH fuel st1 He Ht ltac:(cbn in Hf; lia)) as (n & E & Hn). rewrite E. exists (List.length l + n).
      unfold st1. rewrite adv_adv. split; [reflexivity|]. unfold st1 in Hn. rewrite adv_adv in Hn. exact Hn.
    + exists (List.length l). destruct (rstrip l) as [|c0 t0] eqn:Er; [apply rstrip_blank in Er; congruence|].
      split; [reflexivity|]. exact Ht.
Qed.
Lemma crlf_only_space l : crlf_only l = true -> forallb is_space l = true.
Proof.
  unfold crlf_only. destruct l as [|c l]; [discriminate|]. intro H. rewrite forallb_forall in *. intros x Hx. specialize (H x Hx).
  unfold is_crlf in H. apply orb_true_iff in H as [H|H]; apply N.eqb_eq in H; subst x; reflexivity.
Qed.
Lemma ws_skip_after ls : ws_skip (after_blank ls) = ws_skip ls.
Proof. induction ls as [|l t IH]; [reflexivity|]. cbn [after_blank]. destruct (crlf_only l) eqn:E; [|reflexivity].
  rewrite IH. cbn [ws_skip]. rewrite (crlf_only_space _ E). reflexivity. Qed.
(** the parser gets the first line that is not white space *)
Definition arc_line (a : arcstate) (l : bytes) (st : stream) (off : option nat) : outcome parsed * arcstate * stream :=
  arc_parse a st off (Some l).
Lemma read_record_arc st a b : s_eoc st = None -> s_parser st = PArc a ->
  let off := item_offset (s_kind st) b (pos st + blank_lines (lines_of (rest st))) in
  exists n, lines_of (rest (adv st n)) = tl (ws_skip (lines_of (rest st))) /\
  read_record st b = ArcFacts.finish (s_kind st)
    match ws_skip (lines_of (rest st)) with
    | [] => (Ret (None, [], off), adv st n)
    | l :: _ => let '(o, a', st') := arc_parse a (adv st n) off (Some l) in (o, set_parser st' (PArc a'))
    end.
Proof.
  intros He Hp. cbn zeta. rewrite (read_record_run st b He). cbn zeta. set (ls := lines_of (rest st)).
  set (st1 := adv st (blank_lines ls)).
  assert (Hls1 : lines_of (rest st1) = after_blank ls).
  { destruct (blank_lines_split ls) as (bs & E & L). unfold st1. rewrite rest_adv. apply (lines_of_skip_lines _ _ bs); [exact E|]. symmetry. exact L. }
  assert (Hfu : List.length (after_blank ls) < file_fuel (s_fh st1)).
  { unfold st1. rewrite fuel_adv. pose proof (rest_fuel st). pose proof (lines_length (rest st)). pose proof (after_blank_length ls). unfold ls in *. lia. }
  destruct (arc_blank_eq (after_blank ls) (file_fuel (s_fh st1)) st1 He Hls1 Hfu) as (n & E & Hn).
  exists (blank_lines ls + n). rewrite ws_skip_after in E, Hn. unfold st1 in Hn. rewrite adv_adv in Hn. split; [exact Hn|].
  f_equal. unfold run_parser. change (s_parser (adv st _)) with (s_parser st). rewrite Hp. rewrite first_text_after, <- adv_adv. fold st1.
  unfold arc_parse, arc_parse_fuel. rewrite fuel_adv. rewrite E. unfold st1 at 1. rewrite adv_adv.
  destruct (ws_skip ls) as [|l t] eqn:Ew.
  - cbn [hd]. f_equal. unfold st1. rewrite adv_adv, <- Hp. apply (set_parser_eta (adv st (blank_lines ls + n))).
  - assert (Hl : forallb is_space l = false).
    { clear -Ew. induction ls as [|x ls IH]; [discriminate|]. cbn [ws_skip] in Ew. destruct (forallb is_space x) eqn:Ex; [auto|]. injection Ew as -> _. exact Ex. }
    assert (Hb : arc_blank_loop (file_fuel (s_fh (adv st (blank_lines ls + n)))) (adv st (blank_lines ls + n)) l = (Ret (Some l), adv st (blank_lines ls + n))).
    { unfold file_fuel. cbn [arc_blank_loop]. destruct (rstrip l) eqn:Er; [apply rstrip_blank in Er; congruence|reflexivity]. }
    rewrite Hb. unfold st1. rewrite adv_adv. reflexivity.
Qed.

(** ** C29 *)
Lemma ws_skip_lines blank line x : forallb is_space blank = true -> (blank = [] \/ exists t, blank = t ++ [LF]) ->
  no_lf line -> forallb is_space line = false -> ws_skip (lines_of (blank ++ line ++ [LF] ++ x)) = (line ++ [LF]) :: lines_of x.
Proof.
  intros Hb He Hl Hs.
  assert (G : forall n blank, List.length blank <= n -> forallb is_space blank = true -> (blank = [] \/ exists t, blank = t ++ [LF]) ->
    ws_skip (lines_of (blank ++ line ++ [LF] ++ x)) = (line ++ [LF]) :: lines_of x).
  { induction n as [|n IH]; intros bl Hn Hb' He'.
    - destruct bl; [|cbn in Hn; lia]. cbn [app]. unfold LF. rewrite lines_of_lf by exact Hl. cbn [ws_skip]. rewrite forallb_app, Hs. reflexivity.
    - destruct He' as [->|[t ->]].
      + cbn [app]. unfold LF. rewrite lines_of_lf by exact Hl. cbn [ws_skip]. rewrite forallb_app, Hs. reflexivity.
      + destruct (first_lf (t ++ [LF])) as (a & b & E & Ha); [apply in_or_app; right; left; reflexivity|].
        rewrite E in *. rewrite <- app_assoc. cbn [app]. rewrite lines_of_lf by exact Ha. cbn [ws_skip].
        rewrite forallb_app in Hb'. apply andb_true_iff in Hb' as [H1 H2]. cbn [forallb] in H2. apply andb_true_iff in H2 as [_ H2].
        rewrite forallb_app, H1. cbn [forallb]. change (is_space 10) with true. cbn [andb].
        apply IH; [rewrite app_length in Hn; cbn in Hn; lia|exact H2|].
        destruct (last_case b) as [ -> |(u & c & -> )]; [auto|]. right. exists u.
        assert (E' : (t ++ [LF]) = (a ++ 10%N :: u) ++ [c]) by (rewrite E, <- app_assoc; reflexivity).
        apply app_inj_tail in E' as [_ ->]. reflexivity. }
  apply (G (List.length blank) blank); auto.
Qed.
(** [fin] ends the line: LF, or nothing at the end of the file *)
Definition ends_line (fin more : bytes) : Prop := fin = [LF] \/ fin = [] /\ more = [].
Lemma ws_skip_fin blank line fin x : forallb is_space blank = true -> (blank = [] \/ exists t, blank = t ++ [LF]) ->
  no_lf line -> forallb is_space line = false -> ends_line fin x -> ws_skip (lines_of (blank ++ line ++ fin ++ x)) = (line ++ fin) :: lines_of x.
Proof.
  intros Hb He Hl Hs [->|[-> ->]]; [apply ws_skip_lines; assumption|]. rewrite !app_nil_r.
  assert (Ln : line <> []) by (intros ->; discriminate).
  assert (G : forall n blank, List.length blank <= n -> forallb is_space blank = true -> (blank = [] \/ exists t, blank = t ++ [LF]) ->
    ws_skip (lines_of (blank ++ line)) = [line]).
  { induction n as [|n IH]; intros bl Hn Hb' He'.
    - destruct bl; [|cbn in Hn; lia]. cbn [app]. rewrite lines_of_eof by assumption. cbn [ws_skip]. rewrite Hs. reflexivity.
    - destruct He' as [->|[t ->]].
      + cbn [app]. rewrite lines_of_eof by assumption. cbn [ws_skip]. rewrite Hs. reflexivity.
      + destruct (first_lf (t ++ [LF])) as (a & b & E & Ha); [apply in_or_app; right; left; reflexivity|].
        rewrite E in *. rewrite <- app_assoc. cbn [app]. rewrite lines_of_lf by exact Ha. cbn [ws_skip].
        rewrite forallb_app in Hb'. apply andb_true_iff in Hb' as [H1 H2]. cbn [forallb] in H2. apply andb_true_iff in H2 as [_ H2].
        rewrite forallb_app, H1. cbn [forallb]. change (is_space 10) with true. cbn [andb].
        apply IH; [rewrite app_length in Hn; cbn in Hn; lia|exact H2|].
        destruct (last_case b) as [ -> |(u & c & -> )]; [auto|]. right. exists u.
        assert (E' : (t ++ [LF]) = (a ++ 10%N :: u) ++ [c]) by (rewrite E, <- app_assoc; reflexivity).
        apply app_inj_tail in E' as [_ ->]. reflexivity. }
  apply (G (List.length blank) blank); auto.
Qed.
Lemma startswith_fin line fin more : ends_line fin more -> startswith (B "filedesc:") (line ++ fin) = startswith (B "filedesc:") line.
Proof. intros [->|[-> _]]; [apply (startswith_eol _ line false); reflexivity|rewrite app_nil_r; reflexivity]. Qed.
Theorem C29_no_record_before_a_filedesc : forall (st : stream) (b : bool) (blank line fin more : bytes),
  s_parser st = PArc arc_init -> s_eoc st = None -> f_rest (s_fh st) = blank ++ line ++ fin ++ more -> ends_line fin more ->
  forallb is_space blank = true -> (blank = [] \/ exists t, blank = t ++ [LF]) ->
  no_lf line -> (exists c, In c line /\ is_space c = false) -> startswith (B "filedesc:") line = false ->
  fst (read_record st b) = Raise E_filedesc.
Proof.
  intros st b blank line fin more Hp He Hr Hfin Hb Hbl Hl (c & Hc & Hcs) Hfd.
  assert (Hs : forallb is_space line = false).
  { apply not_true_is_false. intro H. rewrite forallb_forall in H. rewrite (H c Hc) in Hcs. discriminate. }
  destruct (read_record_arc st arc_init b He Hp) as (n & Hn & E). rewrite E. change (rest st) with (f_rest (s_fh st)). rewrite Hr.
  rewrite ws_skip_fin by assumption. unfold arc_parse, arc_parse_fuel.
  assert (Hs2 : forallb is_space (line ++ fin) = false) by (rewrite forallb_app, Hs; reflexivity).
  unfold file_fuel. cbn [arc_blank_loop]. destruct (rstrip (line ++ fin)) eqn:Er; [apply rstrip_blank in Er; congruence|].
  change FILEDESC with (B "filedesc:"). rewrite (startswith_fin _ _ _ Hfin). rewrite Hfd.
  cbn [a_headers arc_init]. destruct (s_kind st); reflexivity.
Qed.
(** nothing but white space *)
Theorem C29_blank_input_ends_cleanly : forall (st : stream) (b : bool) (a : arcstate),
  s_parser st = PArc a -> s_kind st <> SGzipFile -> s_eoc st = None -> forallb is_space (f_rest (s_fh st)) = true ->
  exists off, fst (read_record st b) = Ret (off, None, []).
Proof.
  intros st b a Hp Hk He Hs. destruct (read_record_arc st a b He Hp) as (n & Hn & E). rewrite E.
  assert (G : forall s, forallb is_space s = true -> ws_skip (lines_of s) = []).
  { intros s H. assert (F : Forall (fun l => forallb is_space l = true) (lines_of s)).
    { apply Forall_forall. intros l Hl. rewrite forallb_forall in *. intros x Hx. apply H. rewrite <- (concat_lines s). apply in_concat. eauto. }
    induction F as [|l t Hl F IH]; [reflexivity|]. cbn [ws_skip]. rewrite Hl. exact IH. }
  change (rest st) with (f_rest (s_fh st)). rewrite (G _ Hs). destruct (s_kind st); try contradiction; eexists; reflexivity.
Qed.

(** ** C28 *)
Lemma split1_woven s : forall m pre cur, woven (re_split1 split_rx m pre s cur) (rev cur ++ s).
Proof.
  induction s as [|c t IH]; intros m pre cur; [cbn; rewrite app_nil_r; constructor|].
  assert (Hn : forall m pre, woven (re_split1 split_rx m pre t (c :: cur)) (rev cur ++ c :: t)).
  { intros m' pre'. replace (rev cur ++ c :: t) with (rev (c :: cur) ++ t) by (cbn; rewrite <- app_assoc; reflexivity). apply IH. }
  rewrite split1_cons. destruct m as [[|k]|]; [apply Hn| |];
    (destruct (is_space c) eqn:Ec; cbn [andb]; [destruct (word_at pre || word_at t)|]; [apply woven_cons; [exact Ec|apply (IH _ _ [])]| |]; apply Hn).
Qed.
Lemma split_woven m s : woven (re_split split_rx m s) s.
Proof. apply (split1_woven s _ [] []). Qed.
Lemma woven_snoc vs s v c : woven vs s -> is_space c = true -> woven (vs ++ [v]) (s ++ c :: v).
Proof.
  intros H Hc. induction H as [w|w d vs t Hd H IH]; [apply woven_cons; [exact Hc|constructor]|].
  rewrite <- app_assoc. cbn [app]. apply woven_cons; assumption.
Qed.
Lemma woven_rev vs s : woven vs s -> woven (map (@rev N) (rev vs)) (rev s).
Proof.
  induction 1 as [v|v c vs t Hc H IH]; [constructor|]. cbn [rev]. rewrite map_app, rev_app_distr. cbn [map rev].
  rewrite <- app_assoc. cbn [app]. apply woven_snoc; assumption.
Qed.
Lemma header_list_woven names line hs : arc_header_list names line = Ret hs ->
  map fst hs = names /\ woven (map snd hs) (rstrip_crlf line).
Proof.
  unfold arc_header_list. set (l := rstrip_crlf line). cbn zeta.
  assert (G : forall vs, woven vs l -> (if Nat.eqb (List.length names) (List.length vs) then Ret (combine names vs) else Raise ETypeError) = Ret hs ->
    map fst hs = names /\ woven (map snd hs) l).
  { intros vs Hw E. destruct (Nat.eqb_spec (List.length names) (List.length vs)) as [El|]; [|discriminate]. injection E as <-.
    split; [|replace (map snd (combine names vs)) with vs; [exact Hw|]].
    - revert vs El Hw; clear; induction names as [|n names IH]; intros [|v vs] El Hw; try discriminate; [reflexivity|].
      cbn. f_equal. injection El as El. clear Hw. revert vs El. clear. induction names as [|n names IH]; intros [|v vs] El; try discriminate; [reflexivity|].
      cbn. f_equal. apply IH. injection El as El. exact El.
    - clear -El. revert vs El. induction names as [|n names IH]; intros [|v vs] El; try discriminate; [reflexivity|].
      cbn. apply (f_equal (cons v)). apply IH. injection El as El. exact El. }
  destruct (Nat.eqb (List.length names) (List.length (re_split split_rx 0 l))) eqn:E0.
  - cbn [bind]. intro H. apply (G (re_split split_rx 0 l)); [apply split_woven|exact H].
  - destruct names as [|n0 names']; [discriminate|]. destruct (in_list n0 [ARC_URL; ARC_CONTENT_TYPE]).
    + cbn [bind]. intro H. refine (G _ _ H). pose proof (woven_rev _ _ (split_woven (List.length (n0 :: names') - 1) (rev l))) as W. rewrite rev_involutive in W. exact W.
    + cbn [bind]. intro H. refine (G _ _ H). apply split_woven.
Qed.
Lemma header_list_outcome names line : (exists hs, arc_header_list names line = Ret hs) \/
  arc_header_list names line = Raise ETypeError \/ names = [] .
Proof.
  unfold arc_header_list. cbn zeta. destruct names as [|n0 names']; [auto|]. set (names := n0 :: names').
  destruct (Nat.eqb (List.length names) (List.length (re_split split_rx 0 (rstrip_crlf line)))) eqn:E0;
    [|destruct (in_list n0 [ARC_URL; ARC_CONTENT_TYPE])]; cbn [bind];
  match goal with |- context [if ?b then _ else _] => destruct b end; eauto.
Qed.
Fixpoint spaces (s : bytes) : nat := match s with [] => 0 | c :: t => (if is_space c then 1 else 0) + spaces t end.
Lemma spaces_app a b : spaces (a ++ b) = spaces a + spaces b.
Proof. induction a as [|c a IH]; [reflexivity|]. cbn. rewrite IH. lia. Qed.
Lemma woven_spaces vs s : woven vs s -> List.length vs <= S (spaces s).
Proof. induction 1 as [v|v c vs t Hc H IH]; [cbn; lia|]. rewrite spaces_app. cbn. rewrite Hc. lia. Qed.
Lemma lines_ws_split ls l t : ws_skip ls = l :: t -> exists bs, ls = bs ++ l :: t /\ forallb is_space (concat bs) = true /\ forallb is_space l = false.
Proof.
  induction ls as [|x ls IH]; [discriminate|]. cbn [ws_skip]. destruct (forallb is_space x) eqn:Ex.
  - intro H. destruct (IH H) as (bs & -> & Hb & Hl). exists (x :: bs). split; [reflexivity|]. split; [|exact Hl]. cbn [concat]. rewrite forallb_app, Ex. exact Hb.
  - intro H. injection H as -> ->. exists []. auto.
Qed.

(** every ARC record that is returned comes from the first line that is not white
    space; its fields carry the declared names, and putting the values back
    together with single white-space bytes gives that line *)
Theorem C28_fields_pair_with_names : forall (st st' : stream) (a : arcstate) (b : bool) off r errs,
  s_parser st = PArc a -> s_eoc st = None -> read_record st b = (Ret (off, Some r, errs), st') ->
  exists a' blank line more,
    f_rest (s_fh st) = blank ++ line ++ more /\ one_line line /\ forallb is_space blank = true /\ forallb is_space line = false /\
    s_parser st' = PArc a' /\ (startswith (B "filedesc:") line = false -> a' = a) /\
    map fst (r_headers r) = a_headers a' /\ woven (map snd (r_headers r)) (rstrip_crlf line).
Proof.
  intros st st' a b off r errs Hp He. destruct (read_record_arc st a b He Hp) as (n & Hn & E). rewrite E.
  destruct (ws_skip (lines_of (rest st))) as [|l t] eqn:Ew.
  { cbn [ArcFacts.finish]. destruct (s_kind st); discriminate. }
  destruct (lines_ws_split _ _ _ Ew) as (bs & El & Hb & Hl).
  assert (Hin : In l (lines_of (rest st))) by (rewrite El; apply in_or_app; right; left; reflexivity).
  unfold arc_parse, arc_parse_fuel, file_fuel. cbn [arc_blank_loop].
  destruct (rstrip l) eqn:Er; [apply rstrip_blank in Er; congruence|]. clear Er.
  assert (Hpre : f_rest (s_fh st) = concat bs ++ l ++ concat t).
  { change (rest st = concat bs ++ l ++ concat t). rewrite <- (concat_lines (rest st)), El, concat_app. reflexivity. }
  assert (Hone : one_line l) by (apply (lines_one_line (rest st)); exact Hin).
  destruct (startswith FILEDESC l) eqn:Ef.
  - destruct (stream_readline _ None) as [vl st2]. destruct (stream_readline st2 None) as [nl st3].
    destruct (split_ws (strip vl)) as [|v0 vt]; [destruct (s_kind st); discriminate|]. cbn [a_headers].
    destruct (arc_header_list _ l) as [hs|e|] eqn:Eh; try (destruct (s_kind st); discriminate).
    destruct (arc_content_headers hs None []) as [[z|] errs0]; [|destruct (s_kind st); discriminate].
    destruct (header_list_woven _ _ _ Eh) as [H1 H2].
    intro H. exists (mkarc v0 (split_ws (strip nl))), (concat bs), l, (concat t). do 4 (split; [assumption|]).
    destruct (s_kind st); try discriminate; injection H as <- <- <- <-; split; try reflexivity;
      (split; [change (B "filedesc:") with FILEDESC; congruence|split; assumption]).
  - destruct (a_headers a) as [|h0 nt] eqn:Ea; [destruct (s_kind st); discriminate|]. 
    destruct (arc_header_list _ l) as [hs|e|] eqn:Eh; try (destruct (s_kind st); discriminate).
    destruct (arc_content_headers hs None []) as [z errs0].
    destruct (header_list_woven _ _ _ Eh) as [H1 H2].
    intro H. exists a, (concat bs), l, (concat t). do 4 (split; [assumption|]).
    destruct (s_kind st); try discriminate; injection H as <- <- <- <-; split; try reflexivity;
      (split; [reflexivity|rewrite Ea; split; assumption]).
Qed.
(** a line with too few white-space bytes for the declared names is refused *)
Theorem C28_short_line_raises : forall (st : stream) (a : arcstate) (b : bool) (blank line fin more : bytes),
  s_parser st = PArc a -> a_headers a <> [] -> s_eoc st = None -> f_rest (s_fh st) = blank ++ line ++ fin ++ more -> ends_line fin more ->
  forallb is_space blank = true -> (blank = [] \/ exists t, blank = t ++ [LF]) ->
  no_lf line -> (exists c, In c line /\ is_space c = false) -> startswith (B "filedesc:") line = false ->
  S (spaces (rstrip_crlf line)) < List.length (a_headers a) ->
  fst (read_record st b) = Raise ETypeError.
Proof.
  intros st a b blank line fin more Hp Ha He Hr Hfin Hb Hbl Hl (c & Hc & Hcs) Hfd Hn.
  assert (Hs : forallb is_space line = false).
  { apply not_true_is_false. intro H. rewrite forallb_forall in H. rewrite (H c Hc) in Hcs. discriminate. }
  destruct (read_record_arc st a b He Hp) as (n & _ & E). rewrite E. change (rest st) with (f_rest (s_fh st)). rewrite Hr.
  rewrite ws_skip_fin by assumption. unfold arc_parse, arc_parse_fuel.
  assert (Hs2 : forallb is_space (line ++ fin) = false) by (rewrite forallb_app, Hs; reflexivity).
  unfold file_fuel. cbn [arc_blank_loop]. destruct (rstrip (line ++ fin)) eqn:Er; [apply rstrip_blank in Er; congruence|].
  change FILEDESC with (B "filedesc:"). rewrite (startswith_fin _ _ _ Hfin). rewrite Hfd.
  destruct (a_headers a) as [|h0 nt] eqn:Ea; [contradiction|]. rewrite <- Ea in *.
  destruct (header_list_outcome (a_headers a) (line ++ fin)) as [[hs H]|[H|H]].
  - exfalso. destruct (header_list_woven _ _ _ H) as [H1 H2]. apply woven_spaces in H2.
    assert (Hrs : rstrip_crlf (line ++ fin) = rstrip_crlf line) by (destruct Hfin as [->|[-> _]]; [unfold rstrip_crlf; rewrite rev_app_distr; reflexivity|rewrite app_nil_r; reflexivity]).
    rewrite Hrs in H2. rewrite <- H1, map_length in Hn. rewrite map_length in H2. lia.
  - rewrite H. destruct (s_kind st); reflexivity.
  - congruence.
Qed.

(** spaces inside the URL stay in the URL *)
Theorem C28_url_keeps_its_spaces : forall (st : stream) (a : arcstate) (b : bool) (names vs : list bytes) (url body after : bytes) (crlf : bool),
  s_parser st = PArc a -> a_headers a = B "URL" :: names -> s_eoc st = None -> s_kind st <> SGzipFile ->
  Forall plain_value names -> names <> [] -> List.length vs = List.length names -> Forall plain_value vs -> joints (url :: vs) ->
  no_lf (fields_text (url :: vs)) -> (forall t, fields_text (url :: vs) <> t ++ [CR]) ->
  startswith (B "filedesc:") (fields_text (url :: vs)) = false ->
  archive_length (combine (B "URL" :: names) (url :: vs)) None = Some (Z.of_nat (List.length body)) ->
  f_rest (s_fh st) = fields_text (url :: vs) ++ eol crlf ++ body ++ after ->
  exists off r st', read_record st b = (Ret (off, Some r, []), st') /\
    r_headers r = (B "URL", url) :: combine names vs /\ in_payload st' body after.
Proof.
  intros st a b names vs url body after crlf Hp Ha He Hk Hpn Hne Hl Hpv Hj Hlf Hcr Hfd Hal Hr.
  destruct (read_unit_arc st b (B "URL" :: names) (UArc (url :: vs) crlf body) (body ++ after) He) as (a' & E & _); eauto.
  - exact I.
  - split; [|split; assumption]. split; [change (S (List.length vs) = S (List.length names)); lia|]. split; [destruct names; [contradiction|cbn; lia]|].
    split; [exact Hj|]. split; [|split; assumption]. exact Hpv.
  - constructor; [|exact Hpn]. intros c Hc. cbn in Hc. repeat (destruct Hc as [<-|Hc]; [reflexivity|]). destruct Hc.
  - change (rest st) with (f_rest (s_fh st)). rewrite Hr. cbn [head_bytes]. rewrite <- app_assoc. reflexivity.
  - do 3 eexists. split; [exact E|]. split; [reflexivity|]. 
    split; [reflexivity|]. cbn [head_bytes]. unfold moved. change (f_rest (f_advance (s_fh st) (List.length (fields_text (url :: vs) ++ eol crlf))) = body ++ after).
    rewrite f_rest_advance, Hr, app_assoc, skipn_app, skipn_all2, Nat.sub_diag by lia. reflexivity.
Qed.

(** ** C30 *)
(** whatever the bytes: one read through the mixed reader does what the specific
    reader chosen by the first line would do *)
Theorem C30_each_read_agrees : forall (k : skind) (f : file) (a : arcstate) (b : bool),
  let st p := mkstream k f None p in
  let line := first_text (lines_of (f_rest f)) in
  (startswith (B "WARC") line = true ->
     fst (read_record (st (PMixed a)) b) = fst (read_record (st PWarc) b) /\
     snd (read_record (st (PMixed a)) b) = set_parser (snd (read_record (st PWarc) b)) (PMixed a)) /\
  (startswith (B "WARC") line = false ->
     fst (read_record (st (PMixed a)) b) = fst (read_record (st (PArc a)) b) /\
     exists a', s_parser (snd (read_record (st (PArc a)) b)) = PArc a' /\
       snd (read_record (st (PMixed a)) b) = set_parser (snd (read_record (st (PArc a)) b)) (PMixed a')).
Proof.
  intros k f a b st line. pose proof (read_record_mixed (st PWarc) a b eq_refl) as E.
  change (set_parser (st PWarc) (PMixed a)) with (st (PMixed a)) in E. change (set_parser (st PWarc) PWarc) with (st PWarc) in E.
  change (set_parser (st PWarc) (PArc a)) with (st (PArc a)) in E. change (first_text (lines_of (rest (st PWarc)))) with line in E.
  split; intro H; rewrite H in E; rewrite E.
  - split; reflexivity.
  - destruct (read_record_arc (st (PArc a)) a b eq_refl eq_refl) as (n & _ & Ea). rewrite Ea.
    match goal with |- context [ArcFacts.finish _ ?x] => assert (Hx : exists a', s_parser (snd x) = PArc a') end.
    { destruct (ws_skip _) as [|l t]; [exists a; reflexivity|]. destruct (arc_parse _ _ _ _) as [[o a'] s']. exists a'. reflexivity. }
    destruct Hx as [a' Ha']. match goal with |- context [ArcFacts.finish _ ?x] => set (X := x) in * end. clearbody X.
    destruct X as [[[[r e] o]|e|] s']; cbn [snd fst ArcFacts.finish] in *; destruct (s_kind (st (PArc a))); (split; [reflexivity|]; exists a'; split; [exact Ha'|]; cbn; unfold arc_of; rewrite Ha'; reflexivity).
Qed.
(** whole archives: WARC, ARC, and the two interleaved in any way *)
Theorem C30_warc_archive_read_as_mixed : forall (a : units) (k : skind) (strict : bool),
  units_ok [] a -> Forall (fun x => match fst x with UWarc _ => True | _ => False end) a -> k <> SGzipFile ->
  exists st1 st2 seen,
    for_read_records None true ulook [] (new_stream k (mkfile (units_text a) 0 strict) PWarc) = (Ret tt, seen, st1) /\
    for_read_records None true ulook [] (new_stream k (mkfile (units_text a) 0 strict) (PMixed arc_init)) = (Ret tt, seen, st2) /\
    seen = seen_units (item_offset k true) 0 [] a.
Proof.
  intros a k strict Hok Ha Hk.
  destruct (look_units k PWarc a (units_text a) strict Hok Ha I Hk eq_refl) as [st1 E1].
  destruct (look_units k (PMixed arc_init) a (units_text a) strict Hok) as [st2 E2]; [|reflexivity|exact Hk|reflexivity|].
  { eapply Forall_impl; [|exact Ha]. intros [[w|? ? ? ? ?|? ? ?] s]; cbn; tauto. }
  exists st1, st2. eexists. split; [exact E1|]. split; [exact E2|reflexivity].
Qed.
Theorem C30_arc_archive_read_as_mixed : forall (a : units) (k : skind) (strict : bool),
  units_ok [] a -> Forall (fun x => is_arc_unit (fst x) /\ not_warc_like (fst x)) a -> k <> SGzipFile ->
  exists st1 st2 seen,
    for_read_records None true ulook [] (new_stream k (mkfile (units_text a) 0 strict) (PArc arc_init)) = (Ret tt, seen, st1) /\
    for_read_records None true ulook [] (new_stream k (mkfile (units_text a) 0 strict) (PMixed arc_init)) = (Ret tt, seen, st2) /\
    seen = seen_units (item_offset k true) 0 [] a.
Proof.
  intros a k strict Hok Ha Hk.
  destruct (look_units k (PArc arc_init) a (units_text a) strict Hok) as [st1 E1]; [|reflexivity|exact Hk|reflexivity|].
  { eapply Forall_impl; [|exact Ha]. intros x [H _]. exact H. }
  destruct (look_units k (PMixed arc_init) a (units_text a) strict Hok) as [st2 E2]; [|reflexivity|exact Hk|reflexivity|].
  { eapply Forall_impl; [|exact Ha]. intros x [_ H]. exact H. }
  exists st1, st2. eexists. split; [exact E1|]. split; [exact E2|reflexivity].
Qed.
Theorem C30_interleaved_archive : forall (a : units) (k : skind) (strict : bool),
  units_ok [] a -> Forall (fun x => not_warc_like (fst x)) a -> k <> SGzipFile ->
  exists st,
    for_read_records None true ulook [] (new_stream k (mkfile (units_text a) 0 strict) (PMixed arc_init)) =
      (Ret tt, seen_units (item_offset k true) 0 [] a, st).
Proof. intros a k strict Hok Ha Hk. apply look_units; auto. reflexivity. Qed.

(** ** a concrete archive that meets the hypotheses *)
Definition ex_desc : unit_ :=
  UDesc (map B ["filedesc://a.arc"; "0.0.0.0"; "20200101000000"; "text/plain"; "76"]%string) false
    (B "1 0 InternetArchive") (B "URL IP-address Archive-date Content-type Archive-length") [].
Definition ex_arc : unit_ :=
  UArc (map B ["http://h.org/a b c.html"; "1.2.3.4"; "20200102030405"; "text/html"; "5"]%string) true (B "hello").
Definition ex_warc : unit_ :=
  UWarc (mkw (B "WARC/1.0") [(B "WARC-Type", B "resource"); (B "Content-Length", B "3")] (B "abc")).
Definition ex_units : units := [(ex_desc, [LF]); (ex_arc, [LF; LF]); (ex_warc, [CR; LF; CR; LF]); (ex_arc, [])].
Definition plain_valueb (v : bytes) : bool := forallb (fun c => negb (is_space c)) v.
Lemma plain_valueb_sound v : plain_valueb v = true -> plain_value v.
Proof. intros H c Hc. unfold plain_valueb in H. rewrite forallb_forall in H. apply H, negb_true_iff in Hc. exact Hc. Qed.
Fixpoint jointsb (vs : list bytes) : bool :=
  match vs with
  | v :: ((w :: _) as t) => (ends_word v || starts_word w) && jointsb t
  | _ => true
  end.
Lemma jointsb_sound vs : jointsb vs = true -> joints vs.
Proof.
  induction vs as [|v [|w t] IH]; intro H; try exact I. cbn [jointsb] in H. apply andb_true_iff in H as [H1 H2].
  split; [apply orb_true_iff; exact H1|apply IH; exact H2].
Qed.
Definition fields_okb (names vs : list bytes) : bool :=
  Nat.eqb (List.length vs) (List.length names) && Nat.leb 2 (List.length names) && jointsb vs &&
  (if free_first names then forallb plain_valueb (tl vs) else forallb plain_valueb (removelast vs)) &&
  no_byteb 10 (fields_text vs) && negb (N.eqb (last (fields_text vs) 0%N) 13).
Lemma fields_okb_sound names vs : fields_okb names vs = true -> fields_ok names vs.
Proof.
  intro H. unfold fields_okb in H. apply andb_true_iff in H as [H H6]. apply andb_true_iff in H as [H H5]. apply andb_true_iff in H as [H H4].
  apply andb_true_iff in H as [H H3]. apply andb_true_iff in H as [H1 H2].
  split; [apply Nat.eqb_eq; exact H1|]. split; [apply Nat.leb_le; exact H2|]. split; [apply jointsb_sound; exact H3|].
  split; [destruct (free_first names); (apply (forallb_sound plain_valueb); [apply plain_valueb_sound|exact H4])|].
  split; [apply (no_byteb_sound 10); exact H5|]. intros t E. rewrite E, last_last in H6. discriminate.
Qed.
Lemma ex_desc_ok names : unit_ok names ex_desc.
Proof.
  split; [apply fields_okb_sound; reflexivity|]. split; [reflexivity|]. split; [apply (no_byteb_sound 10); reflexivity|].
  split; [apply (no_byteb_sound 10); reflexivity|]. split; [discriminate|]. reflexivity.
Qed.
Definition ex_names : list bytes := map B ["URL"; "IP-address"; "Archive-date"; "Content-type"; "Archive-length"]%string.
Lemma ex_arc_ok : unit_ok ex_names ex_arc.
Proof. split; [apply fields_okb_sound; reflexivity|]. split; reflexivity. Qed.
Lemma ex_units_ok : units_ok [] ex_units.
Proof.
  assert (L : forall t, forallb is_crlf t = true -> sep_ok (t ++ [LF])).
  { intros t H. split; [|right; eauto]. intros c Hc. apply in_app_or in Hc as [Hc|[<-|[]]]; [|auto].
    rewrite forallb_forall in H. apply H, orb_true_iff in Hc as [Hc|Hc]; apply N.eqb_eq in Hc; auto. }
  assert (S0 : sep_ok []) by (split; [intros c []|auto]).
  pose proof (L [] eq_refl) as S1. pose proof (L [LF] eq_refl) as S2. pose proof (L [CR; LF; CR] eq_refl) as S3.
  assert (W : wrec_ok (mkw (B "WARC/1.0") [(B "WARC-Type", B "resource"); (B "Content-Length", B "3")] (B "abc"))) by (apply wrec_okb_sound; reflexivity).
  exact (conj (ex_desc_ok []) (conj S1 (conj ex_arc_ok (conj S2 (conj W (conj S3 (conj ex_arc_ok (conj S0 I)))))))).
Qed.
Example C26_C30_hypotheses_met :
  units_ok [] ex_units /\ Forall (fun x => not_warc_like (fst x)) ex_units /\
  units_ok [] (firstn 2 ex_units) /\ Forall (fun x => is_arc_unit (fst x) /\ not_warc_like (fst x)) (firstn 2 ex_units).
Proof.
  split; [exact ex_units_ok|]. split; [repeat constructor|]. split; [|repeat constructor].
  destruct ex_units_ok as (H1 & H2 & H3 & H4 & _). exact (conj H1 (conj H2 (conj H3 (conj H4 I)))).
Qed.
(** C26 (truncated), C27: three records before, of which one is a second filedesc, read in different ways *)
Example C26_C27_positions_met :
  let a := [(ex_desc, [LF]); (ex_arc, [LF; LF]); (ex_desc, [LF])] in
  let uses := [[]; [OpRead (Some 1%Z); OpReadline None]; [OpRead None]] in
  units_ok [] (a ++ [(ex_arc, [])]) /\ units_ok [] (a ++ [(ex_desc, [])]) /\ Forall (fun x => is_arc_unit (fst x)) a /\ is_arc_unit ex_arc /\
  0 < List.length (unit_body ex_arc) /\ Forall (Forall limit_ok) uses /\ List.length uses = List.length a.
Proof.
  destruct ex_units_ok as (H1 & H2 & H3 & H4 & _). assert (S0 : sep_ok []) by (split; [intros c []|auto]).
  cbv zeta. split; [|split; [|split; [repeat constructor|split; [exact I|split; [vm_compute; lia|split; [|reflexivity]]]]]].
  - exact (conj H1 (conj H2 (conj H3 (conj H4 (conj (ex_desc_ok ex_names) (conj H2 (conj ex_arc_ok (conj S0 I)))))))).
  - exact (conj H1 (conj H2 (conj H3 (conj H4 (conj (ex_desc_ok ex_names) (conj H2 (conj (ex_desc_ok ex_names) (conj S0 I)))))))).
  - repeat constructor; cbn; lia.
Qed.
