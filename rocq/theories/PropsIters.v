(** C98: several iterators over one stream *)
From Verif Require Export PropsShelf PropsAnyShelf IterSpec.
From Verif Require Import WarcArchive WarcRead PropsRecord.
Import PropsShelf IterSpec.
From Coq Require Import String List Lia ZArith.
Open Scope list_scope.

(** ** Asking for offsets changes only the offset *)
Definition hide (p : parsed) : parsed := (fst p, None).
Definition blind {A} (h : A -> A) (x x' : outcome A * stream) : Prop := fst x' = omap h (fst x) /\ snd x' = snd x.
Definition hide_f (f : found) : found := match f with FNone p => FNone (hide p) | FVersion g _ errs => FVersion g None errs end.
Lemma find_version_hide fuel : forall st line o errs, find_version fuel st line None errs = let '(x, s) := find_version fuel st line o errs in (omap hide_f x, s).
Proof.
  induction fuel as [|fuel IH]; intros st line o errs; [reflexivity|]. cbn [find_version]. destruct line as [|c line]; [reflexivity|]. set (l := c :: line : bytes).
  destruct (re_match version_rx l) as [g|]; [reflexivity|]. change (add_off None (List.length l)) with (@None nat).
  destruct (re_test nl_rx l); [destruct (stream_readline st None) as [l' s1]; apply IH|].
  destruct (Nat.ltb bad_lines (List.length (errs ++ [ErrIgnored l]))); [reflexivity|]. destruct (stream_readline st None) as [l' s1]; apply IH.
Qed.
Lemma warc_hide st o l : warc_parse st None l = let '(x, s) := warc_parse st o l in (omap hide x, s).
Proof.
  unfold warc_parse, warc_parse_fuel. destruct (match l with Some b => (b, st) | None => stream_readline st None end) as [line0 st0].
  rewrite (find_version_hide _ _ _ o). destruct (find_version (file_fuel (s_fh st)) st0 line0 o []) as [[[p|g o' errs]|e|] s1]; cbn [omap hide_f bind]; try reflexivity.
  destruct (in_list (group g_number g) KNOWN_VERSIONS); [|reflexivity]. destruct (stream_readline s1 None) as [l1 s2].
  destruct (header_loop _ s2 l1 [] _ 0%Z) as [[[[hs e3] n]|e|] s3]; reflexivity.
Qed.
Lemma arc_hide a st o l : arc_parse a st None l = let '(x, a', s) := arc_parse a st o l in (omap hide x, a', s).
Proof.
  unfold arc_parse, arc_parse_fuel. destruct (match l with Some b => (b, st) | None => stream_readline st None end) as [line0 st0].
  destruct (arc_blank_loop (file_fuel (s_fh st)) st0 line0) as [[[l1|]|e|] s1]; try reflexivity.
  destruct (startswith FILEDESC l1).
  - destruct (stream_readline s1 None) as [v s2]. destruct (stream_readline s2 None) as [n s3]. destruct (split_ws (strip v)); [reflexivity|].
    destruct (arc_header_list _ l1) as [hs|e|]; try reflexivity. destruct (arc_content_headers hs None []) as [[c|] errs]; reflexivity.
  - destruct (a_headers a); [reflexivity|]. destruct (arc_header_list _ l1) as [hs|e|]; try reflexivity. destruct (arc_content_headers hs None []) as [c errs]; reflexivity.
Qed.
Lemma mixed_loop_hide fuel : forall a st o l, mixed_loop fuel a st None l = let '(x, a', s) := mixed_loop fuel a st o l in (omap hide x, a', s).
Proof.
  induction fuel as [|fuel IH]; intros a st o l; [reflexivity|]. cbn [mixed_loop]. destruct l as [|c l]; [reflexivity|]. set (l0 := c :: l : bytes).
  destruct (startswith WARC_PREFIX l0).
  - rewrite (warc_hide _ o). destruct (warc_parse st o (Some l0)) as [x s]. reflexivity.
  - destruct (negb (in_list l0 _)); [apply arc_hide|]. destruct (stream_readline st None) as [l' s']. apply IH.
Qed.
Lemma run_parser_hide st o l : run_parser st None l = let '(x, s) := run_parser st o l in (omap hide x, s).
Proof.
  unfold run_parser. destruct (s_parser st) as [|a|a]; [apply warc_hide| |].
  - rewrite (arc_hide a st o). destruct (arc_parse a st o (Some l)) as [[x a'] s]. reflexivity.
  - unfold mixed_parse. rewrite (mixed_loop_hide _ a st o). destruct (mixed_loop (file_fuel (s_fh st)) a st o l) as [[x a'] s]. reflexivity.
Qed.
Lemma read_record_hide st : read_record st false = let '(x, s) := read_record st true in (omap unplaced x, s).
Proof.
  unfold read_record. destruct (match s_eoc st with Some _ => skip_to_eoc st | None => (Ret tt, st) end) as [[u|e|] s1]; try reflexivity.
  destruct (skip_blank (s_fh (set_eoc s1 None))) as [[[p l]|e|] f3]; try reflexivity.
  destruct (s_kind st).
  - rewrite (run_parser_hide _ (Some p)). destruct (run_parser _ (Some p) l) as [[[[r errs] o]|e|] s4]; reflexivity.
  - destruct (run_parser _ None l) as [[[[r errs] o]|e|] s4]; reflexivity.
  - destruct (run_parser _ None l) as [[[[r errs] o]|e|] s4]; reflexivity.
Qed.

(** ** One reader behind all iterators *)
Definition as_held (g : gen) : held := (g_kind g, match g_state g with Running n => Some n | _ => None end).
Lemma put_map {A C} (f : A -> C) l : forall i x, map f (put l i x) = put (map f l) i (f x).
Proof. induction l as [|y l IH]; intros [|i] x; cbn; try reflexivity. f_equal. apply IH. Qed.
Lemma put_id {A} (l : list A) : forall i x, nth_error l i = Some x -> put l i x = l.
Proof. induction l as [|y l IH]; intros [|i] x E; cbn in *; try discriminate; [congruence|]. f_equal. apply IH, E. Qed.
Lemma step_quiet s g : asks (as_held g) = false -> exists g', gen_step s g = (Ret PStop, s, g') /\ as_held g' = (g_kind g, None).
Proof.
  destruct g as [[[l|] offs|] [n| |]]; cbn [as_held asks g_kind g_state]; try discriminate; intro H; unfold gen_step; cbn [g_kind g_state];
    try (eexists; split; [reflexivity|reflexivity]). rewrite H. eexists; split; reflexivity.
Qed.
Lemma step_reads s g : asks (as_held g) = true -> exists x s' g',
  shelf_do s Next = (omap VItem x, [], s') /\ gen_step s g = (as_shown (g_kind g) x, s', g') /\ (x <> Diverge -> as_held g' = told_of (as_held g) (as_shown (g_kind g) x)).
Proof.
  intro H. cbn [shelf_do]. pose proof (read_record_hide (sh_st s)) as Hd. destruct (read_record (sh_st s) true) as [x st'] eqn:E.
  destruct g as [[limit offs|] [n| |]]; cbn [as_held asks g_kind g_state] in H; try discriminate; [| destruct limit; discriminate..|].
  - unfold gen_step; cbn [g_kind g_state]. assert (Hl : (match limit with None => true | Some l => (n <? l)%Z end) = true) by (destruct limit; [exact H|reflexivity]). rewrite Hl.
    exists x. assert (R : read_record (sh_st s) offs = (omap (fun it => if offs then it else unplaced it) x, st')).
    { destruct offs; [rewrite E; destruct x; reflexivity|exact Hd]. }
    rewrite R. destruct x as [[[o [r|]] errs]|e|]; destruct offs; cbn [omap bind unplaced fst snd as_shown]; eexists _, _; (split; [try rewrite app_nil_r; reflexivity|]; split; [try rewrite app_nil_r; reflexivity|]; intro Nd; try congruence);
      unfold told_of, as_held; cbn [fst snd gives option_map g_kind g_state]; try reflexivity.
  - unfold gen_step; cbn [g_kind g_state]. rewrite Hd. exists x.
    destruct x as [[[o [r|]] errs]|e|]; [| destruct errs as [|e0 errs]|..]; cbn [omap bind unplaced fst snd as_shown]; eexists _, _; (split; [try rewrite app_nil_r; reflexivity|]; split; [try rewrite app_nil_r; reflexivity|]; intro Nd; try congruence);
      unfold told_of, as_held; cbn [fst snd gives option_map g_kind g_state]; try reflexivity.
Qed.

(** the iterators of a hall as the caller knows them *)
Definition known (h : hall) (is : list held) : Prop := map as_held (h_gens h) = is.
Lemma known_nth h is i : known h is -> nth_error is i = option_map as_held (nth_error (h_gens h) i).
Proof. intros <-. revert i. induction (h_gens h) as [|g l IH]; intros [|i]; cbn; auto. Qed.
Theorem C98_one_reader : forall st recs ps, exists ops,
  tells [] ps (fst (hall_run (mkhall (mkshelf recs st) []) ps)) ops (fst (shelf_run (mkshelf recs st) ops)) /\
  h_shelf (snd (hall_run (mkhall (mkshelf recs st) []) ps)) = snd (shelf_run (mkshelf recs st) ops).
Proof.
  intros st recs ps. assert (G : forall ps h is, known h is -> exists ops, tells is ps (fst (hall_run h ps)) ops (fst (shelf_run (h_shelf h) ops)) /\ h_shelf (snd (hall_run h ps)) = snd (shelf_run (h_shelf h) ops)).
  2: exact (G ps _ _ (eq_refl : known (mkhall (mkshelf recs st) []) [])).
  clear. induction ps as [|p ps IH]; intros h is K.
  { exists []. split; [constructor|reflexivity]. }
  destruct p as [k|g|g|i op]; cbn [hall_run hall_do].
  - destruct (IH (mkhall (h_shelf h) (h_gens h ++ [mkgen k (Running 0)])) (is ++ [(k, Some 0%Z)])) as (ops & T & E). { unfold known. cbn [h_gens]. rewrite map_app, K. reflexivity. }
    exists ops. destruct (hall_run _ ps) as [ys h']. cbn [fst snd h_shelf] in *. split; [constructor; exact T|exact E].
  - pose proof (known_nth h is g K) as N. destruct (nth_error (h_gens h) g) as [gg|] eqn:G; cbn [option_map] in N.
    + destruct (asks (as_held gg)) eqn:Q.
      * destruct (step_reads (h_shelf h) gg Q) as (x & s' & g' & E1 & E2 & E3). rewrite E2. destruct (match x with Diverge => true | _ => false end) eqn:Dv.
        { destruct x; try discriminate. exists [Next]. assert (Sh : as_shown (g_kind gg) Diverge = Diverge) by (destruct (g_kind gg); reflexivity). rewrite Sh. cbn [shelf_run]. rewrite E1. cbn [omap bind fst snd h_shelf].
          split; [eapply T_read_hangs; [exact N|exact Q]|reflexivity]. }
        assert (Nd : x <> Diverge) by (intros ->; discriminate). specialize (E3 Nd).
        destruct (IH (mkhall s' (put (h_gens h) g g')) (put is g (told_of (as_held gg) (as_shown (g_kind gg) x)))) as (ops & T & E). { unfold known. cbn [h_gens]. rewrite put_map, K, E3. reflexivity. }
        exists (Next :: ops). cbn [h_shelf shelf_run] in *. rewrite E1.
        assert (F : omap VItem x <> Diverge) by (destruct x; [discriminate..|contradiction]).
        assert (F' : as_shown (g_kind gg) x <> Diverge) by (destruct (g_kind gg) as [? []|]; destruct x as [[[? []] []]|?|]; cbn; congruence).
        destruct (hall_run _ ps) as [ys h'] eqn:Hr. destruct (shelf_run s' ops) as [xs s2] eqn:Sr. cbn [fst snd] in *.
        replace (match as_shown (g_kind gg) x with Ret _ => _ | Raise _ => _ | Diverge => _ end) with ((as_shown (g_kind gg) x, []) :: ys, h') by (destruct (as_shown (g_kind gg) x); [reflexivity..|contradiction]).
        replace (match omap VItem x with Ret _ => _ | Raise _ => _ | Diverge => _ end) with ((omap VItem x, [] : bytes) :: xs, s2) by (destruct (omap VItem x); [reflexivity..|contradiction]).
        cbn [fst snd]. split; [|exact E]. exact (T_read is g (as_held gg) x ps ys ops xs N Q Nd T).
      * destruct (step_quiet (h_shelf h) gg Q) as (g' & E1 & E2). rewrite E1.
        destruct (IH (mkhall (h_shelf h) (put (h_gens h) g g')) (put is g (g_kind gg, None))) as (ops & T & E). { unfold known. cbn [h_gens]. rewrite put_map, K, E2. reflexivity. }
        exists ops. destruct (hall_run _ ps) as [ys h']. cbn [fst snd h_shelf] in *. split; [|exact E]. eapply T_stop; [exact N|exact Q|exact T].
    + destruct (IH h is K) as (ops & T & E). exists ops. destruct (hall_run h ps) as [ys h']. cbn [fst snd] in *. split; [|exact E]. eapply T_no_gen; eauto.
  - pose proof (known_nth h is g K) as N. destruct (nth_error (h_gens h) g) as [gg|] eqn:G; cbn [option_map] in N.
    + destruct (IH (mkhall (h_shelf h) (put (h_gens h) g (mkgen (g_kind gg) Finished))) (put is g (g_kind gg, None))) as (ops & T & E). { unfold known. cbn [h_gens]. rewrite put_map, K. reflexivity. }
      exists ops. destruct (hall_run _ ps) as [ys h']. cbn [fst snd h_shelf] in *. split; [|exact E]. eapply T_close; [exact N|exact T].
    + destruct (IH h is K) as (ops & T & E). exists ops. destruct (hall_run h ps) as [ys h']. cbn [fst snd] in *. split; [|exact E]. eapply T_no_gen; eauto.
  - destruct (shelf_do (h_shelf h) (On i op)) as [[x out] s'] eqn:D. destruct (match x with Diverge => true | _ => false end) eqn:Dv.
    { destruct x; try discriminate. exists [On i op]. cbn [shelf_run]. rewrite D. cbn. split; [apply T_call_hangs|reflexivity]. }
    destruct (IH (mkhall s' (h_gens h)) is K) as (ops & T & E). exists (On i op :: ops). cbn [shelf_run h_shelf] in *. rewrite D.
    destruct (hall_run _ ps) as [ys h']. destruct (shelf_run s' ops) as [xs s2]. cbn [fst snd] in *.
    destruct x; try discriminate; cbn [omap bind fst snd]; (split; [|exact E]).
    + refine (T_call is i op (Ret _) out ps ys ops xs _ T). discriminate.
    + refine (T_call is i op (Raise _) out ps ys ops xs _ T). discriminate.
Qed.

(** ** An archive *)
Lemma tells_files is ps ys ops xs : tells is ps ys ops xs -> program_files_ok ps -> shelf_files_ok ops.
Proof.
  intro T. induction T; intro F; try (inversion F as [|? ? F1 F2]; subst); try (constructor; fail); try (apply IHT; assumption).
  - constructor; [intros ? ? X; discriminate|]. apply IHT. assumption.
  - constructor; [intros ? ? X; discriminate|constructor].
  - constructor; [|apply IHT; assumption]. intros j rd X. injection X as -> ->. exact (F1 j rd eq_refl).
  - constructor; [|constructor]. intros j rd X. injection X as -> ->. exact (F1 j rd eq_refl).
Qed.
Lemma item_no_beyond gz pos a j : List.length a <= j -> snd (fst (item_no gz pos a j)) = None.
Proof. intro H. unfold item_no. assert (N : nth_error a j = None) by (apply nth_error_None; exact H). rewrite N. reflexivity. Qed.
Lemma item_inj x j gz pos a : (omap VItem x, [] : bytes) = (Ret (VItem (item_no gz pos a j)), [] : bytes) -> x = Ret (item_no gz pos a j).
Proof. intro E. destruct x; cbn in E; congruence. Qed.
Lemma gives_item k gz pos a j : gives (as_shown k (Ret (item_no gz pos a j))) = (j <? List.length a).
Proof.
  unfold item_no. destruct (nth_error a j) as [[w sep]|] eqn:N.
  - assert (L : (j <? List.length a) = true) by (apply Nat.ltb_lt, nth_error_Some; congruence). rewrite L. destruct k as [l []|]; reflexivity.
  - assert (L : (j <? List.length a) = false) by (apply Nat.ltb_ge, nth_error_None; exact N). rewrite L. destruct k as [l []|]; reflexivity.
Qed.
Lemma hands_item k gz pos a j : j < List.length a -> hands gz pos a j (as_shown k (Ret (item_no gz pos a j))).
Proof.
  intro L. unfold item_no, hands. destruct (nth_error a j) as [[w sep]|] eqn:N; [|apply nth_error_None in N; lia]. exists w, sep. split; [reflexivity|].
  destruct k as [l []|]; cbn; auto.
Qed.
Lemma given_cons y out ys : given ((y, out) :: ys) = (if gives y then [y] else []) ++ given ys.
Proof. unfold given. cbn [map filter fst]. destruct (gives y); reflexivity. Qed.
Lemma gives_call (x : outcome sval) : gives (omap PCall x) = false.
Proof. destruct x; reflexivity. Qed.
Lemma tells_given gz pos a is ps ys ops xs : tells is ps ys ops xs -> forall j d d', moves_all gz d ops xs d' -> stands pos a j d -> exists m, Forall2 (hands gz pos a) (seq j m) (given ys).
Proof.
  intro T. induction T; intros j d d' M L.
  - exists 0. constructor.
  - rewrite given_cons. exact (IHT j d d' M L).
  - rewrite given_cons. exact (IHT j d d' M L).
  - rewrite given_cons. exact (IHT j d d' M L).
  - rewrite given_cons. exact (IHT j d d' M L).
  - inversion M as [|? ? ? d1 ? ? ? M1 M2]; subst. destruct (stands_step _ _ _ _ _ _ _ _ L M1) as [L1 E]. apply item_inj in E; [|reflexivity]. subst x.
    cbn [is_next] in L1. destruct (IHT (S j) d1 d' M2 L1) as [m F]. rewrite given_cons, gives_item. destruct (j <? List.length a) eqn:J.
    + apply Nat.ltb_lt in J. exists (S m). cbn [seq app]. constructor; [apply hands_item; exact J|exact F].
    + apply Nat.ltb_ge in J. exists 0. destruct m as [|m]; [cbn in *; inversion F; constructor|]. cbn in F. inversion F as [|? ? ? ? Y1 Y2 Y3]; subst. destruct Y1 as (w & sep & N & _).
      assert (S j < List.length a) by (apply nth_error_Some; congruence). lia.
  - exists 0. constructor.
  - rewrite given_cons, gives_call. inversion M as [|? ? ? d1 ? ? ? M1 M2]; subst. destruct (stands_step _ _ _ _ _ _ _ _ L M1) as [L1 _]. exact (IHT j d1 d' M2 L1).
  - exists 0. constructor.
Qed.
Lemma start_stands gz st pos a : at_start gz st pos a -> stands pos a 0 (mkdesk [] [] pos a).
Proof. intros _. split; [reflexivity|]. split; [cbn; lia|]. reflexivity. Qed.
Lemma on_archive gz st pos a ps : at_start gz st pos a -> archive_ok a -> program_files_ok ps -> exists ops xs d,
  tells [] ps (fst (hall_run (mkhall (mkshelf [] st) []) ps)) ops xs /\ moves_all gz (mkdesk [] [] pos a) ops xs d.
Proof.
  intros H Hok F. destruct (C98_one_reader st [] ps) as (ops & T & _). destruct (C88_history gz st pos a ops H Hok (tells_files _ _ _ _ _ T F)) as (xs & s & d & E & M).
  rewrite E in T. exists ops, xs, d. split; [exact T|exact M].
Qed.
Theorem C98_in_order : forall gz st pos a ps, at_start gz st pos a -> archive_ok a -> program_files_ok ps ->
  exists m, m <= List.length a /\ Forall2 (hands gz pos a) (seq 0 m) (given (fst (hall_run (mkhall (mkshelf [] st) []) ps))).
Proof.
  intros gz st pos a ps H Hok F. destruct (on_archive gz st pos a ps H Hok F) as (ops & xs & d & T & M).
  destruct (tells_given gz pos a _ _ _ _ _ T 0 _ d M (start_stands gz st pos a H)) as [m Fm]. exists m. split; [|exact Fm].
  destruct m as [|m]; [lia|]. assert (X : exists y, hands gz pos a m y). { rewrite seq_S in Fm. apply Forall2_app_inv_l in Fm. destruct Fm as (l1 & l2 & _ & Y & _). inversion Y; subst. eauto. }
  destruct X as (y & w & sep & N & _). apply nth_error_Some. congruence.
Qed.

(** *** An iterator without a limit stops only when all records were handed over *)
Lemma nth_put_other {A} (l : list A) i j x : i <> j -> nth_error (put l i x) j = nth_error l j.
Proof. apply put_other. Qed.
Lemma kinds_nth (is : list held) g i : nth_error is g = Some i -> nth_error (map fst is) g = Some (fst i).
Proof. intro N. rewrite nth_error_map. exact (f_equal (option_map fst) N). Qed.
Lemma kinds_put (is : list held) g i j : nth_error is g = Some i -> fst j = fst i -> map fst (put is g j) = map fst is.
Proof. intros N E. rewrite put_map. apply put_id. rewrite E. exact (kinds_nth is g i N). Qed.
Lemma tells_all gz pos a g k is ps ys ops xs : tells is ps ys ops xs -> endless k -> ~ In (Close g) ps -> nth_error (map fst is ++ made ps) g = Some k ->
  forall j d d', moves_all gz d ops xs d' -> stands pos a j d -> (nth_error is g = Some (k, None) -> List.length a <= j) ->
  (exists y, In y (answers g ps ys) /\ gives y = false /\ y <> Ret PNoGen) -> List.length a <= j + List.length (given ys).
Proof.
  intros T Ek. induction T; intros Nc Nk j d d' M L Inv (y & Hy & Hg & Hn).
  - destruct Hy.
  - rewrite given_cons. cbn [answers made flat_map] in *. apply (IHT ltac:(intro; apply Nc; right; assumption)) with (d := d) (d' := d'); [|exact M|exact L| |exists y; auto].
    + rewrite map_app, <- app_assoc. exact Nk.
    + intro E. apply Inv. destruct (Nat.lt_ge_cases g (List.length is)) as [A|A]; [rewrite nth_error_app1 in E by exact A; exact E|].
      rewrite nth_error_app2 in E by exact A. destruct (g - List.length is) as [|[|?]]; cbn in E; discriminate.
  - rewrite given_cons. cbn [app]. assert (Hm : made (p :: ps) = made ps) by (destruct H as [->| ->]; reflexivity). rewrite Hm in Nk.
    apply (IHT ltac:(intro; apply Nc; right; assumption) Nk j d d' M L Inv). exists y. split; [|auto]. destruct H as [->| ->]; cbn [answers] in Hy; [|exact Hy].
    apply in_app_or in Hy. destruct Hy as [Hy|Hy]; [|exact Hy]. destruct (Nat.eqb g0 g); [destruct Hy as [<-|[]]; congruence|destruct Hy].
  - rewrite given_cons. cbn [app made flat_map answers] in *. assert (Q : g0 <> g) by (intros ->; apply Nc; left; reflexivity).
    apply (IHT ltac:(intro; apply Nc; right; assumption)) with (d := d) (d' := d'); [|exact M|exact L| |exists y; auto].
    + rewrite (kinds_put is g0 i) by (exact H || reflexivity). exact Nk.
    + rewrite put_other by exact Q. exact Inv.
  - rewrite given_cons. cbn [app made flat_map] in *.
    assert (Kp : map fst (put is g0 (fst i, None)) = map fst is) by (apply (kinds_put is g0 i); [exact H|reflexivity]).
    destruct (Nat.eq_dec g0 g) as [->|Q].
    + assert (Kg : fst i = k). { rewrite nth_error_app1 in Nk by (rewrite map_length; apply nth_error_Some; intro Z0; pose proof (eq_trans (eq_sym H) Z0); discriminate). pose proof (eq_trans (eq_sym (kinds_nth is g i H)) Nk) as Z1. congruence. }
      destruct i as [ki [n|]]; cbn [fst] in Kg; subst ki; [destruct k as [[l|] offs|]; cbn in H0, Ek; try discriminate; contradiction|]. pose proof (Inv H). lia.
    + apply (IHT ltac:(intro; apply Nc; right; assumption)) with (d := d) (d' := d'); [rewrite Kp; exact Nk|exact M|exact L|rewrite put_other by exact Q; exact Inv|]. exists y. split; [|auto].
      cbn [answers] in Hy. apply Nat.eqb_neq in Q. rewrite Q in Hy. exact Hy.
  - inversion M as [|? ? ? d1 ? ? ? M1 M2]; subst. destruct (stands_step _ _ _ _ _ _ _ _ L M1) as [L1 E]. apply item_inj in E; [|reflexivity]. subst x.
    rewrite given_cons, gives_item, app_length. destruct (j <? List.length a) eqn:J; [|apply Nat.ltb_ge in J; lia]. cbn [List.length is_next made flat_map app] in *.
    assert (X : List.length a <= S j + List.length (given ys)); [|lia].
    assert (Kp : forall z, map fst (put is g0 (told_of i z)) = map fst is) by (intro z; apply (kinds_put is g0 i); [exact H|reflexivity]).
    apply (IHT ltac:(intro; apply Nc; right; assumption)) with (d := d1) (d' := d'); [rewrite Kp; exact Nk|exact M2|exact L1| |].
    + intro E. destruct (Nat.eq_dec g0 g) as [->|Q]; [|rewrite put_other in E by exact Q; pose proof (Inv E); lia]. rewrite (put_same _ _ _ _ H) in E. unfold told_of in E. rewrite gives_item, J in E.
      destruct i as [ki [n|]]; cbn in E; [congruence|]. destruct ki as [[l|] offs|]; discriminate.
    + exists y. split; [|auto]. cbn [answers] in Hy. apply in_app_or in Hy. destruct Hy as [Hy|Hy]; [|exact Hy]. destruct (Nat.eqb g0 g); [destruct Hy as [<-|[]]|destruct Hy]. rewrite gives_item in Hg. congruence.
  - inversion M as [|? ? ? d1 ? ? ? M1 M2]; subst. destruct (stands_step _ _ _ _ _ _ _ _ L M1) as [_ E]. specialize (E eq_refl). discriminate.
  - rewrite given_cons, gives_call. cbn [app made flat_map answers] in *. inversion M as [|? ? ? d1 ? ? ? M1 M2]; subst. destruct (stands_step _ _ _ _ _ _ _ _ L M1) as [L1 _].
    apply (IHT ltac:(intro; apply Nc; right; assumption) Nk j d1 d' M2 L1 Inv). exists y; auto.
  - cbn in Hy. destruct ps as [|[]]; destruct Hy.
Qed.
Theorem C98_none_missing : forall gz st pos a ps g k y, at_start gz st pos a -> archive_ok a -> program_files_ok ps ->
  let ys := fst (hall_run (mkhall (mkshelf [] st) []) ps) in
  nth_error (made ps) g = Some k -> endless k -> ~ In (Close g) ps -> In y (answers g ps ys) -> gives y = false -> y <> Ret PNoGen ->
  Forall2 (hands gz pos a) (seq 0 (List.length a)) (given ys).
Proof.
  intros gz st pos a ps g k y H Hok F ys Nk Ek Nc Hy Hg Hn. destruct (C98_in_order gz st pos a ps H Hok F) as (m & Hm & Fm). fold ys in Fm.
  destruct (on_archive gz st pos a ps H Hok F) as (ops & xs & d & T & M). fold ys in T.
  assert (X : List.length a <= 0 + List.length (given ys)).
  { eapply (tells_all gz pos a g k _ _ _ _ _ T Ek Nc); [exact Nk|exact M|exact (start_stands gz st pos a H)| |exists y; auto]. destruct g; discriminate. }
  assert (m = List.length a) by (pose proof (Forall2_len _ _ _ Fm) as Q; rewrite seq_length in Q; lia). subst m. exact Fm.
Qed.

(** *** Who gets which record *)
Fixpoint numbered (j : nat) (gs : list nat) : list (nat * nat) := match gs with [] => [] | g :: t => (j, g) :: numbered (S j) t end.
Lemma tells_steps gz pos a ks : Forall endless ks -> forall gs is ys ops xs j d d', tells is (map Step gs) ys ops xs -> map fst is = ks -> Forall (fun i => snd i <> None) is -> Forall (fun g => g < List.length ks) gs ->
  j + List.length gs <= List.length a -> moves_all gz d ops xs d' -> stands pos a j d ->
  ys = map (fun p => (as_shown (nth (snd p) ks ByIter) (Ret (item_no gz pos a (fst p))), [] : bytes)) (numbered j gs).
Proof.
  intro Ek. induction gs as [|g gs IH]; intros is ys ops xs j d d' T K Al Lt Le M L; cbn [map] in T; [inversion T; reflexivity|]. inversion Lt as [|? ? Lg Lt']; subst. cbn [List.length] in Le.
  assert (Ai : forall i, nth_error is g = Some i -> asks i = true /\ fst i = nth g (map fst is) ByIter).
  { intros i N. split; [|symmetry; apply nth_error_nth; exact (kinds_nth is g i N)]. rewrite Forall_forall in Al, Ek. pose proof (Al i (nth_error_In _ _ N)) as A1. pose proof (Ek (fst i) (in_map fst _ _ (nth_error_In _ _ N))) as A2.
    destruct i as [[[l|] offs|] [n|]]; cbn in *; try contradiction; try reflexivity; congruence. }
  inversion T as [| |? ? ? ? ? ? ? Hp N| |? ? i ? ? ? ? N Q|? ? i x ? ? ? ? N Q Nd T'|? ? i ? N Q| |]; subst.
  - exfalso. match type of Hp with Step _ = Step ?z \/ _ => assert (z = g) by (destruct Hp as [X|X]; [injection X; auto|discriminate]); subst z end. rewrite map_length in Lg. exact (proj1 (Nat.le_ngt _ _) (proj1 (nth_error_None is g) N) Lg).
  - destruct (Ai _ N) as [A _]. congruence.
  - destruct (Ai _ N) as [_ A]. inversion M as [|? ? ? d1 ? ? ? M1 M2]; subst. destruct (stands_step _ _ _ _ _ _ _ _ L M1) as [L1 E]. apply item_inj in E; [|reflexivity]. subst x.
    cbn [numbered map fst snd]. rewrite A. f_equal. assert (Kp : map fst (put is g (told_of i (as_shown (fst i) (Ret (item_no gz pos a j))))) = map fst is) by (apply (kinds_put is g i); [exact N|reflexivity]).
    refine (IH _ _ _ _ (S j) d1 d' T' Kp _ Lt' _ M2 L1); [|lia]. apply Forall_forall. intros z Hz. unfold told_of in Hz. rewrite gives_item in Hz. assert (J : (j <? List.length a) = true) by (apply Nat.ltb_lt; lia). rewrite J in Hz.
    rewrite Forall_forall in Al. pose proof (Al i (nth_error_In _ _ N)) as A1. clear - Hz Al A1. revert Hz Al. generalize g. induction is as [|h is IH]; intros g0 Hz Al; [destruct Hz|]. destruct g0 as [|g0]; cbn in Hz.
    + destruct Hz as [<-|Hz]; [cbn; destruct (snd i); [discriminate|congruence]|apply Al; right; exact Hz].
    + destruct Hz as [<-|Hz]; [apply Al; left; reflexivity|]. apply (IH g0 Hz). intros; apply Al; right; assumption.
  - inversion M as [|? ? ? d1 ? ? ? M1 M2]; subst. destruct (stands_step _ _ _ _ _ _ _ _ L M1) as [_ E]. specialize (E eq_refl). discriminate.
Qed.
Lemma tells_makes ks : forall is ps ys ops xs, tells is (map Make ks ++ ps) ys ops xs -> exists ys', ys = map (fun _ => (Ret PNone, [])) ks ++ ys' /\ tells (is ++ map (fun k => (k, Some 0%Z)) ks) ps ys' ops xs.
Proof.
  induction ks as [|k ks IH]; intros is ps ys ops xs T; cbn [map app] in *; [exists ys; rewrite app_nil_r; auto|]. inversion T as [|? ? ? ? ? ? T'|? ? ? ? ? ? ? [X|X]| | | | | |]; subst; try discriminate.
  destruct (IH _ _ _ _ _ T') as (ys' & -> & T2). exists ys'. split; [reflexivity|]. rewrite <- app_assoc in T2. exact T2.
Qed.
Theorem C98_who_gets_which : forall gz st pos a ks gs, at_start gz st pos a -> archive_ok a -> Forall endless ks -> Forall (fun g => g < List.length ks) gs -> List.length gs <= List.length a ->
  fst (hall_run (mkhall (mkshelf [] st) []) (map Make ks ++ map Step gs)) =
    map (fun _ => (Ret PNone, [])) ks ++ map (fun p => (as_shown (nth (snd p) ks ByIter) (Ret (item_no gz pos a (fst p))), [])) (combine (seq 0 (List.length gs)) gs).
Proof.
  intros gz st pos a ks gs H Hok Ek Lt Le. destruct (on_archive gz st pos a (map Make ks ++ map Step gs) H Hok) as (ops & xs & d & T & M).
  { apply Forall_app. split; apply Forall_forall; intros p Hp i rd ->; apply in_map_iff in Hp; destruct Hp as (? & X & _); discriminate. }
  destruct (tells_makes ks _ _ _ _ _ T) as (ys' & E & T2). etransitivity; [exact E|]. f_equal.
  assert (Hn : forall l j, combine (seq j (List.length l)) l = numbered j l) by (induction l as [|g l IH]; intro j; cbn; [reflexivity|f_equal; apply IH]). rewrite Hn.
  refine (tells_steps gz pos a ks Ek gs _ _ _ _ 0 _ d T2 _ _ Lt Le M (start_stands gz st pos a H)).
  - cbn [app]. rewrite map_map. apply map_id.
  - cbn [app]. apply Forall_forall. intros z Hz. apply in_map_iff in Hz. destruct Hz as (k & <- & _). discriminate.
Qed.

(** ** Any stream: limits and stopping *)
Definition rem (l : Z) (o : option held) : Z := match o with Some (_, Some n) => Z.max 0 (l - n) | Some (_, None) => 0 | None => Z.max 0 l end.
Lemma rem_nonneg l o : (0 <= rem l o)%Z.
Proof. destruct o as [[? [?|]]|]; cbn; lia. Qed.
Lemma limit_tells g l b is ps ys ops xs : tells is ps ys ops xs -> nth_error (map fst is ++ made ps) g = Some (ByRecords (Some l) b) ->
  (Z.of_nat (List.length (filter is_item (answers g ps ys))) <= rem l (nth_error is g))%Z.
Proof.
  intro T. induction T as [is|is k ps ys ops xs T IH|is p g0 ps ys ops xs Hp N T IH|is g0 i ps ys ops xs N T IH|is g0 i ps ys ops xs N Q T IH|is g0 i x ps ys ops xs N Q Nd T IH|is g0 i ps N Q|is i op x out ps ys ops xs Nd T IH|is i op out ps]; intro Nk.
  - apply rem_nonneg.
  - cbn [answers made flat_map] in *. rewrite map_app, <- app_assoc in IH. specialize (IH Nk). destruct (Nat.lt_ge_cases g (List.length is)) as [A|A].
    + rewrite nth_error_app1 in IH by exact A. exact IH.
    + rewrite nth_error_app2 in IH by exact A. assert (Nn : @nth_error held is g = None) by (apply nth_error_None; exact A). rewrite Nn.
      destruct (g - List.length is) as [|[|?]]; cbn [nth_error rem] in IH |- *; lia.
  - assert (Hm : made (p :: ps) = made ps) by (destruct Hp as [->| ->]; reflexivity). rewrite Hm in Nk. specialize (IH Nk).
    destruct Hp as [->| ->]; cbn [answers]; [|exact IH]. destruct (Nat.eqb g0 g); exact IH.
  - cbn [answers made flat_map app] in *. rewrite (kinds_put is g0 i) in IH by (exact N || reflexivity). specialize (IH Nk). destruct (Nat.eq_dec g0 g) as [->|Q].
    + rewrite (put_same _ _ _ _ (N : @nth_error held is g = Some i)) in IH. rewrite (N : @nth_error held is g = Some i). destruct i as [ki [n|]]; cbn [fst snd rem] in IH |- *; lia.
    + rewrite put_other in IH by exact Q. exact IH.
  - cbn [answers made flat_map app] in *. rewrite (kinds_put is g0 i) in IH by (exact N || reflexivity). specialize (IH Nk). destruct (Nat.eqb g0 g) eqn:E; [apply Nat.eqb_eq in E; subst g0|apply Nat.eqb_neq in E].
    + rewrite (put_same _ _ _ _ (N : @nth_error held is g = Some i)) in IH. rewrite (N : @nth_error held is g = Some i). cbn [app filter is_item]. destruct i as [ki [n|]]; cbn [fst snd rem] in IH |- *; lia.
    + rewrite put_other in IH by exact E. exact IH.
  - cbn [answers made flat_map app] in *. rewrite (kinds_put is g0 i) in IH by (exact N || reflexivity). specialize (IH Nk). destruct (Nat.eqb g0 g) eqn:E; [apply Nat.eqb_eq in E; subst g0|apply Nat.eqb_neq in E].
    + rewrite (put_same _ _ _ _ (N : @nth_error held is g = Some i)) in IH. rewrite (N : @nth_error held is g = Some i). cbn [app filter].
      assert (Ki : fst i = ByRecords (Some l) b).
      { rewrite nth_error_app1 in Nk by (rewrite map_length; apply nth_error_Some; intro Z0; pose proof (eq_trans (eq_sym N) Z0); discriminate). pose proof (eq_trans (eq_sym (kinds_nth is g i N)) Nk) as Z1. congruence. }
      destruct i as [ki [n|]]; cbn [fst] in Ki; subst ki; cbn [asks] in Q; [apply Z.ltb_lt in Q|discriminate]. unfold told_of in IH. cbn [fst snd rem] in IH |- *.
      destruct (gives (as_shown (ByRecords (Some l) b) x)) eqn:G; cbn [option_map rem] in IH.
      * destruct (is_item (as_shown (ByRecords (Some l) b) x)); cbn [List.length]; lia.
      * destruct (is_item (as_shown (ByRecords (Some l) b) x)); cbn [List.length]; lia.
    + rewrite put_other in IH by exact E. exact IH.
  - cbn [answers]. destruct (Nat.eqb g0 g); cbn [app filter is_item]; destruct ps as [|[]]; apply rem_nonneg.
  - cbn [answers made flat_map app] in *. exact (IH Nk).
  - cbn [answers]. destruct ps as [|[]]; apply rem_nonneg.
Qed.
Theorem C98_limit : forall st recs ps g l b, nth_error (made ps) g = Some (ByRecords (Some l) b) ->
  (Z.of_nat (List.length (filter is_item (answers g ps (fst (hall_run (mkhall (mkshelf recs st) []) ps))))) <= Z.max 0 l)%Z.
Proof.
  intros st recs ps g l b N. destruct (C98_one_reader st recs ps) as (ops & T & _). pose proof (limit_tells g l b _ _ _ _ _ T N) as X. destruct g; exact X.
Qed.
(** an iterator that has stopped, raised or been closed stays so, and asking it changes nothing at all *)
Definition done_with (h : hall) (g : nat) : Prop := exists k, nth_error (h_gens h) g = Some (mkgen k Finished).
Lemma done_asked h g : done_with h g -> hall_do h (Step g) = (Ret PStop, [], h).
Proof.
  intros [k N]. cbn [hall_do]. rewrite N. unfold gen_step. cbn [g_kind g_state]. destruct k; rewrite (put_id _ _ _ N); destruct h; reflexivity.
Qed.
Lemma done_stays h p g : done_with h g -> done_with (snd (hall_do h p)) g.
Proof.
  intros [k N]. assert (Lg : g < List.length (h_gens h)) by (apply nth_error_Some; congruence). destruct p as [k'|g'|g'|i op]; cbn [hall_do].
  - exists k. cbn. rewrite nth_error_app1 by exact Lg. exact N.
  - destruct (Nat.eq_dec g' g) as [->|Q]; [assert (D : done_with h g) by (exists k; exact N); pose proof (done_asked h g D) as E; cbn [hall_do] in E; rewrite E; exact D|].
    destruct (nth_error (h_gens h) g') as [gg|]; [|exists k; exact N]. destruct (gen_step (h_shelf h) gg) as [[x s'] g2]. exists k. cbn. rewrite put_other by exact Q. exact N.
  - destruct (nth_error (h_gens h) g') as [gg|] eqn:G; [|exists k; exact N]. destruct (Nat.eq_dec g' g) as [->|Q]; [exists (g_kind gg); cbn; exact (put_same _ _ _ _ G)|]. exists k. cbn. rewrite put_other by exact Q. exact N.
  - destruct (shelf_do (h_shelf h) (On i op)) as [[x out] s']. exists k. exact N.
Qed.
Lemma done_runs ps : forall h g, done_with h g -> done_with (snd (hall_run h ps)) g.
Proof.
  induction ps as [|p ps IH]; intros h g D; [exact D|]. cbn [hall_run]. pose proof (done_stays h p g D) as D1. destruct (hall_do h p) as [[x out] h']. cbn [snd] in D1. specialize (IH h' g D1).
  destruct (hall_run h' ps) as [xs h'']. destruct x; cbn [snd] in *; assumption.
Qed.
Theorem C98_stays_stopped : forall h p g x out h1 ps, hall_do h p = (x, out, h1) -> (p = Step g /\ (x = Ret PStop \/ exists e, x = Raise e)) \/ (p = Close g /\ x = Ret PNone) ->
  let h2 := snd (hall_run h1 ps) in hall_do h2 (Step g) = (Ret PStop, [], h2).
Proof.
  intros h p g x out h1 ps E H h2. apply done_asked, done_runs. destruct H as [[-> Hx]|[-> ->]]; cbn [hall_do] in E.
  - destruct (nth_error (h_gens h) g) as [gg|] eqn:G; [|destruct Hx as [->|[e ->]]; discriminate].
    destruct (gen_step (h_shelf h) gg) as [[y s'] g2] eqn:S2. injection E as -> <- <-. assert (F : g_state g2 = Finished).
    { destruct gg as [[lim offs|] [n| |]]; unfold gen_step in S2; cbn [g_kind g_state] in S2.
      2,3,5,6: injection S2 as <- <- <-; reflexivity.
      - destruct (match lim with None => true | Some l => (n <? l)%Z end); [|injection S2 as <- <- <-; reflexivity]. destruct (read_record (sh_st (h_shelf h)) offs) as [[[[o [r|]] errs]|e|] st']; injection S2 as <- <- <-; try reflexivity; destruct Hx as [X|[? X]]; discriminate.
      - destruct (read_record (sh_st (h_shelf h)) false) as [[[[o [r|]] [|e0 errs]]|e|] st']; injection S2 as <- <- <-; try reflexivity; destruct Hx as [X|[? X]]; discriminate. }
    exists (g_kind g2). cbn. rewrite (put_same _ _ _ _ G). destruct g2 as [k z]. cbn in F. subst z. reflexivity.
  - destruct (nth_error (h_gens h) g) as [gg|] eqn:G; [|discriminate]. injection E as <- <-. exists (g_kind gg). cbn. exact (put_same _ _ _ _ G).
Qed.

(** ** Any file *)
Lemma tells_nexts is ps ys ops xs : tells is ps ys ops xs -> nexts ops <= List.length (filter is_step ps).
Proof.
  intro T. induction T; unfold nexts in *; cbn [filter is_next is_step List.length] in *; try lia.
  - destruct H as [->| ->]; cbn [is_step]; cbn [List.length]; lia.
Qed.
Lemma gives_shown k x : gives (as_shown k x) = has_record x.
Proof. destruct k as [l []|]; destruct x as [[[o [r|]] [|e errs]]|e|]; reflexivity. Qed.
Lemma next_inj x it : Some (omap VItem x, [] : bytes) = Some (omap VItem it, [] : bytes) -> x = it.
Proof. intro E. destruct x, it; cbn in E; congruence. Qed.
Lemma skipn_nth {A} (l : list A) : forall c x, nth_error l c = Some x -> skipn c l = x :: skipn (S c) l.
Proof. induction l as [|y l IH]; intros [|c] x E; cbn in *; try discriminate; [congruence|]. apply IH, E. Qed.
Lemma tells_items (items : list (outcome item * bytes)) is ps ys ops xs : tells is ps ys ops xs -> forall c,
  (forall i, nth_error ops i = Some Next -> exists it, nth_error items (c + nexts (firstn i ops)) = Some it /\ nth_error xs i = Some (omap VItem (fst it), [])) ->
  Forall2 shows_item (filter has_record (map fst (firstn (nexts ops) (skipn c items)))) (given ys).
Proof.
  intro T. induction T; intros c Hx.
  - constructor.
  - rewrite given_cons. apply IHT, Hx.
  - rewrite given_cons. apply IHT, Hx.
  - rewrite given_cons. apply IHT, Hx.
  - rewrite given_cons. apply IHT, Hx.
  - rewrite given_cons, gives_shown. destruct (Hx 0 eq_refl) as (it & N & E). cbn [firstn] in N. change (nexts []) with 0 in N. rewrite Nat.add_0_r in N. cbn [nth_error] in E. apply next_inj in E. subst x.
    change (nexts (Next :: ops)) with (S (nexts ops)). rewrite (skipn_nth _ _ _ N). cbn [firstn map filter].
    assert (R : Forall2 shows_item (filter has_record (map fst (firstn (nexts ops) (skipn (S c) items)))) (given ys)).
    { apply IHT. intros j Hj. destruct (Hx (S j) Hj) as (it' & N' & E'). exists it'. split; [|exact E']. cbn [firstn] in N'. change (nexts (Next :: firstn j ops)) with (S (nexts (firstn j ops))) in N'. rewrite Nat.add_succ_r in N'. exact N'. }
    destruct (has_record (fst it)); cbn [app]; [|exact R]. constructor; [exists (fst i); reflexivity|exact R].
  - destruct (Hx 0 eq_refl) as (it & N & E). cbn [firstn] in N. change (nexts []) with 0 in N. rewrite Nat.add_0_r in N. cbn [nth_error] in E. assert (F : fst it = Diverge) by (destruct (fst it); cbn in E; congruence).
    change (nexts [Next]) with 1. rewrite (skipn_nth _ _ _ N). cbn [firstn map filter]. rewrite F. constructor.
  - rewrite given_cons, gives_call. change (nexts (On i op :: ops)) with (nexts ops). apply IHT. intros j Hj. exact (Hx (S j) Hj).
  - constructor.
Qed.
Theorem C98_any_file : forall w gz st pos text names items ps, poised w gz st pos text names -> steady w gz (pos + List.length text) names (Some text) items ->
  program_files_ok ps -> List.length (filter is_step ps) <= List.length items ->
  exists m, m <= List.length items /\ Forall2 shows_item (filter has_record (map fst (firstn m items))) (given (fst (hall_run (mkhall (mkshelf [] st) []) ps))).
Proof.
  intros w gz st pos text names items ps Hp Hs F Hl. destruct (C98_one_reader st [] ps) as (ops & T & _). pose proof (tells_nexts _ _ _ _ _ T) as Le.
  destruct (C92_same_items w gz st pos text names items ops Hp Hs (tells_files _ _ _ _ _ T F) ltac:(lia)) as [_ Hx].
  exists (nexts ops). split; [lia|]. exact (tells_items items _ _ _ _ _ T 0 Hx).
Qed.

(** ** A concrete case *)
(** two loops, one inside the other, and zip(stream, stream), on three records *)
Definition types_seen (ys : list (outcome pval * bytes)) : list (option (option bytes)) :=
  map (fun y => match fst y with
                | Ret (PRecord r) | Ret (PItem (_, Some r, _)) => Some (first_header (B "Content-Type") (r_headers r))
                | Ret (PItem (_, None, _)) => Some None
                | _ => None end) ys.
Definition c98_run (ps : list pop) := fst (hall_run (mkhall (mkshelf [] c88_stream) []) ps).
Definition seen_type (s : string) : option (option bytes) := Some (Some (B s)).
(** for a in stream: for b in stream: the inner loop takes what is left, and the outer one ends *)
Example C98_nested_case : types_seen (c98_run [Make ByIter; Step 0; Make ByIter; Step 1; Step 1; Step 1; Step 0; Step 1]) =
  [None; seen_type "text/a"; None; seen_type "text/b"; seen_type "text/c"; None; None; None].
Proof. vm_compute. reflexivity. Qed.
(** for r in stream: ... break, and then another loop: it goes on behind the record *)
Example C98_resumed_case : types_seen (c98_run [Make ByIter; Step 0; Close 0; Step 0; Make (ByRecords (Some 1%Z) true); Step 1; Step 1; Make (ByRecords None false); Step 2; Step 2; Step 2]) =
  [None; seen_type "text/a"; None; None; None; seen_type "text/b"; None; None; seen_type "text/c"; Some None; None].
Proof. vm_compute. reflexivity. Qed.
(** the offsets are those of the records, whoever reads them *)
Example C98_offsets_case : map (fun y => match fst y with Ret (PItem (o, _, _)) => o | _ => None end) (c98_run [Make ByIter; Make (ByRecords None true); Step 0; Step 1; Step 0; Step 1]) =
  [None; None; None; Some (List.length (archive_text (firstn 1 c88_archive))); None; Some (List.length (archive_text c88_archive))].
Proof. vm_compute. reflexivity. Qed.
Example C98_in_order_case : given (c98_run [Make ByIter; Make (ByRecords (Some 1%Z) false); Step 1; Call 0 AskContent; Step 1; Step 0; Step 0; Call 1 AskContent; Step 0]) =
  [Ret (PItem (None, Some (handed (c88_rec "text/a" "first")), [])); Ret (PRecord (handed (c88_rec "text/b" "the second"))); Ret (PRecord (handed (c88_rec "text/c" "3rd")))].
Proof. vm_compute. reflexivity. Qed.
(** read_records(limit=0) and a negative limit give nothing *)
Example C98_limit_case : map fst (c98_run [Make (ByRecords (Some 0%Z) true); Make (ByRecords (Some (-3)%Z) true); Step 0; Step 1; Make (ByRecords (Some 9%Z) true); Close 2; Step 2]) =
  [Ret PNone; Ret PNone; Ret PStop; Ret PStop; Ret PNone; Ret PNone; Ret PStop].
Proof. vm_compute. reflexivity. Qed.
(** (the hypotheses of C98_any_file: C92_case) a malformed file: __iter__ raises, and stays stopped *)
Example C98_any_file_case : map fst (fst (hall_run (mkhall (mkshelf [] (new_stream SPlain (mkfile (B "a
b
c
d
e
f
") 0 true) PWarc)) []) [Make ByIter; Step 0; Step 0])) = [Ret PNone; Raise E_decode; Ret PStop].
Proof. vm_compute. reflexivity. Qed.
