(** C88: keeping the records of a stream while reading on *)
From Verif Require Export ShelfSpec PropsLife.
From Verif Require Import WarcArchive WarcRead PropsRecord.
From Coq Require Import String List Lia ZArith.
Open Scope list_scope.

(** ** Lemmas *)
Definition fits (r : record) (k : kept_rec) : Prop :=
  r_class r = k_class k /\ r_headers r = k_headers k /\ r_content r = k_known k /\
  match k_file k with
  | None => r_cf r = CF_none
  | Some (Own d, u) => r_valid r = negb u /\ exists rd, r_cf r = CF_own rd /\ full rd /\ concat rd = d
  | Some (Shared, u) => r_valid r = negb u /\ r_cf r = CF_stream
  end.
Lemma fits_shares r k : fits r k -> (r_cf r = CF_stream <-> shares k = true).
Proof.
  intros (_ & _ & _ & H). unfold shares. destruct (k_file k) as [[[d|] u]|].
  - destruct H as (_ & rd & E & _). rewrite E. split; discriminate.
  - destruct H as [_ E]. rewrite E. split; reflexivity.
  - rewrite H. split; discriminate.
Qed.
Lemma fits_shows (P : stream -> bytes -> Prop) r st k left : fits r k -> (shares k = true -> P st left) -> shows P r st (viewed left k).
Proof.
  intros (H1 & H2 & H3 & H4) Hh. split; [exact H1|]. split; [exact H2|]. split; [exact H3|]. cbn [viewed o_file]. unfold shares in Hh. destruct (k_file k) as [[[d|] u]|]; [| |exact H4].
  - destruct H4 as [V E]. split; [exact V|]. left. exact E.
  - destruct H4 as [V E]. split; [exact V|]. right. split; [exact E|apply Hh; reflexivity].
Qed.
(** a record that reads from the stream goes on doing so, or has no file any more *)
Lemma copy_loop_stream fuel : forall st out, snd (fst (fst (copy_loop fuel CF_stream st out))) = CF_stream.
Proof.
  induction fuel as [|fuel IH]; intros st out; [reflexivity|]. cbn [copy_loop cf_read]. destruct (stream_read st (Some (Z.of_nat (Z.to_nat CHUNK_SIZE)))) as [[[|c d]|e|] st']; try reflexivity. apply IH.
Qed.
Lemma content_stream r st : r_cf r = CF_stream -> r_cf (snd (fst (rec_content r st))) = CF_stream \/ r_cf (snd (fst (rec_content r st))) = CF_none.
Proof. intro H. unfold rec_content. destruct (r_content r); [left; exact H|]. rewrite H. destruct (stream_read st None) as [[d|e|] st']; right; reflexivity. Qed.
Lemma do_stream r st op x out r' st' : r_cf r = CF_stream -> (forall f, op <> AssignFile f) -> rec_do r st op = (x, out, r', st') -> r_cf r' = CF_stream \/ r_cf r' = CF_none.
Proof.
  intros H Ha E. pose proof (content_stream r st H) as C.
  destruct op as [| | |n|n v|lim|f|gz nl]; cbn [rec_do] in E.
  - destruct (rec_content r st) as [[y r1] s1]. injection E as _ _ <- _. exact C.
  - unfold rec_content_type in E. destruct (r_content r).
    + destruct (rec_content r st) as [[y r1] s1]. injection E as _ _ <- _. exact C.
    + destruct (get_header r (ct_name r)); [injection E as _ _ <- _; left; exact H|]. destruct (rec_content r st) as [[y r1] s1]. injection E as _ _ <- _. exact C.
  - unfold rec_content_length in E. destruct (r_content r).
    + destruct (rec_content r st) as [[y r1] s1]. injection E as _ _ <- _. exact C.
    + destruct (get_header r (cl_name r)); [injection E as _ _ <- _; left; exact H|]. destruct (rec_content r st) as [[y r1] s1]. injection E as _ _ <- _. exact C.
  - injection E as _ _ <- _. left; exact H.
  - injection E as _ _ <- _. left; exact H.
  - rewrite H in E. destruct lim as [n|]; cbn [cf_read cf_read_all] in E; destruct (stream_read st _) as [y s1]; injection E as _ _ <- _; left; reflexivity.
  - exfalso. exact (Ha f eq_refl).
  - unfold write_to in E. rewrite H in E. assert (Hc : has_cf r = true) by (unfold has_cf; rewrite H; reflexivity). rewrite Hc in E. destruct (negb (r_valid r)); cbn [andb] in E; [injection E as _ _ <- _; left; exact H|].
    unfold rec_write in E. destruct (r_class r).
    + unfold warc_write in E. rewrite Hc, H in E. match type of E with context [copy_loop ?f ?c ?s ?q] => pose proof (copy_loop_stream f s q) as K; destruct (copy_loop f c s q) as [[[[u|e|] c'] s1] o1] end; cbn [fst snd] in K; subst c';
        cbn [has_cf r_cf with_valid with_cf] in E; injection E as _ _ <- _; left; reflexivity.
    + rewrite Hc in E. injection E as _ _ <- _. left; exact H.
    + rewrite Hc in E. injection E as _ _ <- _. left; exact H.
Qed.
Lemma shows_fits (P : stream -> bytes -> Prop) r k op x out r' st st' o t : fits r k -> rec_do r st op = (x, out, r', st') -> shows P r' st' o -> kept P r st t r' st' -> fits r' (again k op o).
Proof.
  intros Hf E (S1 & S2 & S3 & S4) [_ Hk]. split; [exact S1|]. split; [exact S2|]. split; [exact S3|]. cbn [again k_file]. destruct (o_file o) as [[d u]|]; [|exact S4]. destruct S4 as [V S4].
  assert (A : forall f, op = AssignFile f -> r_valid r' = negb u /\ exists rd, r_cf r' = CF_own rd /\ full rd /\ concat rd = d).
  { intros f ->. split; [exact V|]. destruct S4 as [X|[X _]]; [exact X|]. cbn [rec_do] in E. injection E as _ _ <- _. destruct f; discriminate. }
  assert (N : (forall f, op <> AssignFile f) -> match (if shares k then Shared else Own d) with Own d0 => r_valid r' = negb u /\ exists rd, r_cf r' = CF_own rd /\ full rd /\ concat rd = d0 | Shared => r_valid r' = negb u /\ r_cf r' = CF_stream end).
  { intro Ha. destruct (shares k) eqn:Sh; (split; [exact V|]).
    - apply (fits_shares r k Hf) in Sh. destruct (do_stream _ _ _ _ _ _ _ Sh Ha E) as [X|X]; [exact X|]. exfalso. destruct S4 as [(rd & C & _)|[C _]]; congruence.
    - destruct S4 as [X|[C _]]; [exact X|]. apply Hk in C. apply (fits_shares r k Hf) in C. congruence. }
  destruct op; try (apply N; discriminate). eapply A. reflexivity.
Qed.
Lemma put_forall {A C} (P : A -> C -> Prop) l m i x y : Forall2 P l m -> P x y -> Forall2 P (put l i x) (put m i y).
Proof. intros H Hp. revert i. induction H as [|a c l m H1 H2 IH]; intros [|i]; cbn [put]; constructor; auto. Qed.
Lemma nth_forall {A C} (P : A -> C -> Prop) l m i x : Forall2 P l m -> nth_error m i = Some x -> exists y, nth_error l i = Some y /\ P y x.
Proof. intro H. revert i. induction H as [|a c l m H1 H2 IH]; intros [|i] E; cbn in E; try discriminate; [injection E as <-; exists a; auto|exact (IH i E)]. Qed.
Lemma Forall2_len {A C} (P : A -> C -> Prop) l m : Forall2 P l m -> List.length l = List.length m.
Proof. intro H. induction H; [reflexivity|]. cbn [List.length]. f_equal. assumption. Qed.
Lemma nth_none {A C} (P : A -> C -> Prop) l m i : Forall2 P l m -> nth_error m i = None -> nth_error l i = None.
Proof. intros H E. apply nth_error_None in E. apply nth_error_None. rewrite (Forall2_len _ _ _ H). exact E. Qed.

(** ** The invariant *)
Definition laid_out (gz : bool) (s : shelf) (d : desk) : Prop :=
  Forall2 fits (sh_recs s) (d_recs d) /\ archive_ok (d_coming d) /\
  exists after next, at_text next (d_pos d) (archive_text (d_coming d)) /\ s_parser next = PWarc /\ s_kind next = (if gz then SGzipRecord else SPlain) /\
    ((d_recs d = [] /\ sh_st s = next) \/ here after next (sh_st s) (d_left d)).
Lemma laid_next gz s d b : laid_out gz s d -> exists next, read_record (sh_st s) b = read_record next b /\ at_text next (d_pos d) (archive_text (d_coming d)) /\ s_parser next = PWarc /\ s_kind next = (if gz then SGzipRecord else SPlain).
Proof. intros (_ & _ & after & next & A & P & K & H). exists next. split; [|auto]. destruct H as [[_ ->]|H]; [reflexivity|]. eapply here_next. exact H. Qed.
Lemma step_ok gz s d op : laid_out gz s d -> (forall i rd, op = On i (AssignFile (Some rd)) -> full rd) ->
  exists x out s' d', shelf_do s op = (x, out, s') /\ moves gz d op (x, out) d' /\ laid_out gz s' d' /\ x <> Diverge.
Proof.
  intros L Ha. destruct op as [|i op].
  - destruct (laid_next gz s d true L) as (next & E & A & P & K). pose proof L as (F & Hok & _). cbn [shelf_do]. rewrite E.
    assert (Kg : s_kind next <> SGzipFile) by (rewrite K; destruct gz; discriminate).
    assert (Of : forall n, item_offset (s_kind next) true n = shown gz n) by (intro n; rewrite K; destruct gz; reflexivity).
    destruct (d_coming d) as [|[w sep] a] eqn:Co.
    + destruct (at_text_fresh _ _ _ A) as (st0 & Heq & He & Hr & Hpos & Hk0 & Hp0 & _). cbn in Hr.
      rewrite Heq, (read_end st0 true He); [|congruence|congruence|exact Hr]. rewrite Hk0, Hpos, Of. cbn [omap bind].
      eexists _, _, _, _. split; [reflexivity|]. split; [apply M_end; exact Co|]. split; [|discriminate]. split; [cbn; rewrite app_nil_r; exact F|]. split; [exact Hok|].
      exists [], st0. split; [|split; [congruence|]; split; [congruence|]].
      * left. split; [exact He|]. exists []. cbn. split; [exact Hr|]. split; [split; [intros ? []|left; reflexivity]|]. rewrite Nat.add_0_r. exact Hpos.
      * right. split; [right; auto|]. cbn [List.length]. destruct st0 as [k f e p]. cbn in *. subst e. unfold fresh, adv, set_fh, set_eoc. cbn. rewrite f_advance_0. reflexivity.
    + inversion Hok as [|? ? [Hw Hs] Hok']; subst. cbn [fst snd] in Hw, Hs.
      destruct (read_first next (d_pos d) w sep a true A P Kg Hw) as (st1 & E1 & Hi & Hk1 & Hp1 & _ & Hpos1). rewrite E1, Of. cbn [omap bind].
      eexists _, _, _, _. split; [reflexivity|]. split; [eapply M_next; exact Co|]. split; [|discriminate].
      split; [cbn; apply Forall2_app; [exact F|]; constructor; [|constructor]; repeat split|]. split; [exact Hok'|].
      exists (sep ++ archive_text a), (fresh (adv st1 (List.length (w_body w)))). cbn [d_pos d_coming d_left sh_st]. split; [|split; [exact Hp1|]; split; [transitivity (s_kind next); [exact Hk1|exact K]|]].
      * left. split; [reflexivity|]. exists sep. destruct Hi as [_ Hr]. split; [change (rest (fresh ?q)) with (rest q); apply rest_adv_app; exact Hr|]. split; [exact Hs|].
        change (pos (fresh ?q)) with (pos q). rewrite pos_adv. lia.
      * right. split; [left; exact Hi|reflexivity].
  - cbn [shelf_do]. pose proof L as (F & Hok & after & next & A & P & K & H). destruct (nth_error (d_recs d) i) as [k|] eqn:Ni.
    + destruct (nth_forall _ _ _ _ _ F Ni) as (r & Nr & Fr). rewrite Nr.
      assert (Hh : here after next (sh_st s) (d_left d)) by (destruct H as [[X _]|H]; [rewrite X in Ni; destruct i; discriminate|exact H]).
      assert (Ho : forall rd, op = AssignFile (Some rd) -> full rd) by (intros rd ->; exact (Ha i rd eq_refl)).
      set (l := if shares k then d_left d else []).
      assert (Sw : shows (here after next) r (sh_st s) (viewed l k)) by (apply fits_shows; [exact Fr|]; intro Sh; unfold l; rewrite Sh; exact Hh).
      destruct (here_do after next r (sh_st s) (viewed l k) op Sw Ho) as (x & out & r' & st' & t & o & E & D & S' & Kp & Nd). rewrite E.
      pose proof (shows_fits _ _ _ _ _ _ _ _ _ _ _ Fr E S' Kp) as Fr'. pose proof (put_forall fits _ _ i _ _ F Fr') as F'.
      assert (Xd : omap VCall x <> Diverge) by (destruct x; [discriminate..|contradiction]).
      destruct (shares k) eqn:Sh; unfold l in *.
      * assert (Lf : exists left, d_left d = t ++ left /\ here after next st' left).
        { destruct Kp as [[[-> Ht]|(_ & l1 & l2 & X1 & X2 & X3)] _].
          - rewrite Ht by (apply (fits_shares r k Fr); exact Sh). exists (d_left d). auto.
          - exists l2. split; [rewrite (here_one _ _ _ _ _ Hh X1); exact X2|exact X3]. }
        destruct Lf as (left & Lf & Hl). eexists _, _, _, _. split; [reflexivity|]. split.
        { eapply M_shared; [exact Ni|exact Sh|exact D|exact Lf|]. intros n ->. apply (fits_shares r k Fr) in Sh. cbn [rec_do] in E. rewrite Sh in E. cbn [cf_read] in E.
          destruct (here_read after next (sh_st s) (d_left d) (Some (Z.of_nat n)) Hh (Nat2Z.is_nonneg n)) as (got & l' & s1 & E1 & E2 & E3 & _). rewrite E1 in E. cbn [cop_result] in E3. rewrite Nat2Z.id in E3.
          injection E as <- <- _ _. inversion D; subst; reflexivity. }
        split; [|exact Xd]. split; [exact F'|]. split; [exact Hok|]. exists after, next. cbn [d_pos d_coming d_left sh_st]. auto.
      * assert (St : st' = sh_st s) by (destruct Kp as [[[-> _]|(X & _)] _]; [reflexivity|apply (fits_shares r k Fr) in X; congruence]).
        eexists _, _, _, _. split; [reflexivity|]. split; [eapply M_call; [exact Ni|exact Sh|exact D]|]. split; [|exact Xd]. split; [exact F'|]. split; [exact Hok|]. exists after, next. cbn [d_pos d_coming d_left sh_st]. rewrite St. auto.
    + rewrite (nth_none _ _ _ _ F Ni). eexists _, _, _, _. split; [reflexivity|]. split; [apply M_none; exact Ni|]. split; [exact L|discriminate].
Qed.
Definition shelf_files_ok (ops : list sop) : Prop := Forall (fun op => forall i rd, op = On i (AssignFile (Some rd)) -> Forall (fun p => p <> []) rd) ops.
Lemma run_ok gz ops : forall s d, laid_out gz s d -> shelf_files_ok ops -> exists xs s' d', shelf_run s ops = (xs, s') /\ moves_all gz d ops xs d' /\ laid_out gz s' d'.
Proof.
  induction ops as [|op ops IH]; intros s d L Hf; [exists [], s, d; split; [reflexivity|]; split; [constructor|exact L]|]. inversion Hf as [|? ? F1 F2]; subst.
  destruct (step_ok gz s d op L F1) as (x & out & s1 & d1 & E & M & L1 & Nd). destruct (IH s1 d1 L1 F2) as (xs & s2 & d2 & E2 & M2 & L2).
  exists ((x, out) :: xs), s2, d2. cbn [shelf_run]. rewrite E, E2. split; [destruct x; [reflexivity..|contradiction]|]. split; [econstructor; eassumption|exact L2].
Qed.

(** ** The theorems *)
(** a stream at the start of an archive, nothing read yet *)
Definition at_start (gz : bool) (st : stream) (pos : nat) (a : archive) : Prop :=
  s_kind st = (if gz then SGzipRecord else SPlain) /\ s_parser st = PWarc /\ s_eoc st = None /\ f_pos (s_fh st) = pos /\ f_rest (s_fh st) = archive_text a.
Theorem C88_history : forall gz st pos a ops, at_start gz st pos a -> archive_ok a -> shelf_files_ok ops ->
  exists xs s d, shelf_run (mkshelf [] st) ops = (xs, s) /\ moves_all gz (mkdesk [] [] pos a) ops xs d.
Proof.
  intros gz st pos a ops (Hk & Hp & He & Hpos & Hr) Hok Hf. destruct (run_ok gz ops (mkshelf [] st) (mkdesk [] [] pos a)) as (xs & s & d & E & M & _); [|exact Hf|exists xs, s, d; auto].
  split; [constructor|]. split; [exact Hok|]. exists [], st. cbn [d_pos d_coming d_left sh_st d_recs]. split; [|auto]. left. split; [exact He|]. exists []. split; [exact Hr|]. split; [split; [intros ? []|left; reflexivity]|]. unfold StreamFacts.pos. cbn. rewrite Nat.add_0_r. exact Hpos.
Qed.
(** *** What follows for histories *)
Definition is_next (o : sop) : bool := match o with Next => true | On _ _ => false end.
Definition nexts (ops : list sop) : nat := List.length (filter is_next ops).
(** the calls of a history that are on record [k] *)
Definition calls_on (k : nat) (ops : list sop) : list rop := flat_map (fun o => match o with On i op => if Nat.eqb i k then [op] else [] | Next => [] end) ops.
(** the [k]-th item (from 0) of an archive that starts at offset [pos] *)
Definition item_no (gz : bool) (pos : nat) (a : archive) (k : nat) : item :=
  match nth_error a k with
  | Some (w, _) => (shown gz (pos + List.length (archive_text (firstn k a))), Some (handed w), [])
  | None => (shown gz (pos + List.length (archive_text a)), None, [])
  end.
Lemma moves_app gz a : forall d b xs d', moves_all gz d (a ++ b) xs d' -> exists xs1 xs2 d1, xs = xs1 ++ xs2 /\ moves_all gz d a xs1 d1 /\ moves_all gz d1 b xs2 d'.
Proof.
  induction a as [|op a IH]; intros d b xs d' H; [exists [], xs, d; repeat split; auto; constructor|]. cbn [app] in H. inversion H as [|? ? x d1 ? xs0 ? M L]; subst.
  destruct (IH _ _ _ _ L) as (xs1 & xs2 & d2 & -> & L1 & L2). exists (x :: xs1), xs2, d2. repeat split; try assumption. econstructor; eassumption.
Qed.
Lemma moves_length gz d ops xs d' : moves_all gz d ops xs d' -> List.length xs = List.length ops.
Proof. intro H. induction H as [|d op x d1 ops xs d2 M L IH]; [reflexivity|]. cbn. f_equal. exact IH. Qed.
Lemma moves_nth gz d ops xs d' i op : moves_all gz d ops xs d' -> nth_error ops i = Some op -> exists d1 x d2, moves_all gz d (firstn i ops) (firstn i xs) d1 /\ moves gz d1 op x d2 /\ nth_error xs i = Some x.
Proof.
  intro H. revert i. induction H as [d|d op' x d1 ops xs d2 M L IH]; intros [|i] E; cbn [nth_error] in E; try discriminate.
  - injection E as <-. exists d, x, d1. split; [constructor|]. split; [exact M|reflexivity].
  - destruct (IH i E) as (e1 & y & e2 & L1 & M1 & N1). exists e1, y, e2. split; [econstructor; eassumption|]. auto.
Qed.
Lemma put_length {A} (l : list A) : forall i x, List.length (put l i x) = List.length l.
Proof. induction l as [|y l IH]; intros [|i] x; cbn [put List.length]; auto. Qed.
Lemma put_same {A} (l : list A) : forall i x y, nth_error l i = Some y -> nth_error (put l i x) i = Some x.
Proof. induction l as [|z l IH]; intros [|i] x y E; cbn in *; try discriminate; [reflexivity|eapply IH; exact E]. Qed.
Lemma put_other {A} (l : list A) : forall i j x, i <> j -> nth_error (put l i x) j = nth_error l j.
Proof. induction l as [|z l IH]; intros [|i] [|j] x E; cbn; try reflexivity; [congruence|apply IH; congruence]. Qed.
(** where the desk is: [k] steps on *)
Definition stands (pos : nat) (a : archive) (k : nat) (d : desk) : Prop :=
  d_coming d = skipn k a /\ d_pos d = pos + List.length (archive_text (firstn k a)) /\ List.length (d_recs d) = Nat.min k (List.length a).
Lemma archive_text_app a b : archive_text (a ++ b) = archive_text a ++ archive_text b.
Proof. unfold archive_text. rewrite map_app, concat_app. reflexivity. Qed.
Lemma skipn_cons {A} (l : list A) : forall k x t, skipn k l = x :: t -> nth_error l k = Some x /\ skipn (S k) l = t /\ firstn (S k) l = firstn k l ++ [x] /\ k < List.length l.
Proof.
  induction l as [|y l IH]; intros [|k] x t E; cbn in E; try discriminate; [injection E as -> ->; repeat split; cbn; lia|]. destruct (IH k x t E) as (A1 & A2 & A3 & A4). split; [exact A1|]. split; [exact A2|]. split; [|cbn [List.length]; lia].
  cbn [firstn app] in *. f_equal. exact A3.
Qed.
Lemma stands_step gz pos a k d op x d' : stands pos a k d -> moves gz d op x d' -> stands pos a (if is_next op then S k else k) d' /\ (op = Next -> x = (Ret (VItem (item_no gz pos a k)), [])).
Proof.
  intros (S1 & S2 & S3) M. inversion M; subst; cbn [is_next].
  - rewrite S1 in H. destruct (skipn_cons _ _ _ _ H) as (N1 & N2 & N3 & N4). split.
    + split; [cbn [d_coming]; symmetry; exact N2|]. split; cbn [d_pos d_recs]; [assert (T : archive_text [(w, sep)] = wrec_text w ++ sep) by (unfold archive_text; cbn [map concat fst snd]; apply app_nil_r); assert (Q : List.length (archive_text (firstn (S k) a)) = List.length (archive_text (firstn k a)) + (List.length (wrec_text w) + List.length sep)) by (rewrite N3, archive_text_app, app_length; f_equal; etransitivity; [exact (f_equal (@List.length _) T)|apply app_length]); rewrite Q, S2; generalize (List.length (archive_text (firstn k a))) (List.length (wrec_text w)) (List.length sep); intros; rewrite !Nat.add_assoc; reflexivity|]. rewrite app_length, S3, !Nat.min_l by lia. cbn [List.length]. lia.
    + intros _. unfold item_no. rewrite N1, S2. reflexivity.
  - rewrite S1 in H. pose proof (f_equal (@List.length _) H) as L. rewrite skipn_length in L. cbn in L. split.
    + split; [cbn [d_coming]; symmetry; apply skipn_all2; lia|]. split; cbn [d_pos d_recs]; [rewrite S2, !firstn_all2 by lia; reflexivity|]. rewrite S3. lia.
    + intros _. unfold item_no. assert (N : nth_error a k = None) by (apply nth_error_None; lia). rewrite N, S2, firstn_all2 by lia. reflexivity.
  - split; [|discriminate]. split; [exact S1|]. split; [exact S2|]. cbn. rewrite put_length. exact S3.
  - split; [|discriminate]. split; [exact S1|]. split; [exact S2|]. cbn. rewrite put_length. exact S3.
  - split; [|discriminate]. split; [exact S1|]. split; [exact S2|exact S3].
Qed.
Lemma stands_all gz pos a d ops xs d' : moves_all gz d ops xs d' -> forall k, stands pos a k d -> stands pos a (k + nexts ops) d'.
Proof.
  intro H. induction H as [d|d op x d1 ops xs d2 M L IH]; intros k S; [unfold nexts; cbn; rewrite Nat.add_0_r; exact S|].
  destruct (stands_step _ _ _ _ _ _ _ _ S M) as [S1 _]. specialize (IH _ S1). unfold nexts in *. cbn [filter]. destruct (is_next op); cbn [List.length]; [rewrite Nat.add_succ_r; exact IH|exact IH].
Qed.
Lemma stands_start pos a : stands pos a 0 (mkdesk [] [] pos a).
Proof. split; [reflexivity|]. split; [cbn; lia|reflexivity]. Qed.
(** Whatever calls are made on whichever records in between, with whatever they read, write
    or raise: the [k]-th step of the loop gives the [k]-th record, in full and at its offset,
    and the end after the last. *)
Theorem C88_order : forall gz st pos a ops, at_start gz st pos a -> archive_ok a -> shelf_files_ok ops ->
  exists xs s, shelf_run (mkshelf [] st) ops = (xs, s) /\ List.length xs = List.length ops /\
    forall i, nth_error ops i = Some Next -> nth_error xs i = Some (Ret (VItem (item_no gz pos a (nexts (firstn i ops)))), []).
Proof.
  intros gz st pos a ops Hs Hok Hf. destruct (C88_history gz st pos a ops Hs Hok Hf) as (xs & s & d & E & M). exists xs, s. split; [exact E|]. split; [eapply moves_length; exact M|].
  intros i N. destruct (moves_nth _ _ _ _ _ _ _ M N) as (d1 & x & d2 & M1 & M2 & ->). f_equal.
  destruct (stands_step _ _ _ _ _ _ _ _ (stands_all _ _ _ _ _ _ _ M1 0 (stands_start pos a)) M2) as [_ X]. exact (X eq_refl).
Qed.
(** once a record's content is known, it stays *)
Definition knows (d : desk) (k : nat) c : Prop := exists r, nth_error (d_recs d) k = Some r /\ k_known r = Some c.
Lemma knows_step gz d op x d' k c : moves gz d op x d' -> knows d k c -> knows d' k c.
Proof.
  intros M (r & N & K). inversion M; subst; cbn [d_recs].
  - exists r. cbn. split; [|exact K]. rewrite nth_error_app1; [exact N|]. apply nth_error_Some. congruence.
  - exists r. auto.
  - destruct (Nat.eq_dec i k) as [->|Ne].
    + rewrite N in H. injection H as <-. eexists. cbn. split; [eapply put_same; exact N|]. cbn. eapply does_known; [eassumption|exact K].
    + exists r. cbn. split; [rewrite put_other by exact Ne; exact N|exact K].
  - destruct (Nat.eq_dec i k) as [->|Ne].
    + rewrite N in H. injection H as <-. eexists. cbn. split; [eapply put_same; exact N|]. cbn. eapply does_known; [eassumption|exact K].
    + exists r. cbn. split; [rewrite put_other by exact Ne; exact N|exact K].
  - exists r. auto.
Qed.
Lemma knows_all gz d ops xs d' k c : moves_all gz d ops xs d' -> knows d k c -> knows d' k c.
Proof. intros H K. induction H as [|d op x d1 ops xs d2 M L IH]; [exact K|]. apply IH. eapply knows_step; eassumption. Qed.
Lemma knows_ask gz d x d' k c : moves gz d (On k AskContent) x d' -> knows d k c -> x = (Ret (VCall (VContent c)), []).
Proof.
  intros M (r & N & K). inversion M; subst; try congruence.
  all: match goal with X : nth_error _ _ = Some ?q, D : does (viewed _ ?q) _ _ _ _ _ |- _ => rewrite N in X; injection X as <-; inversion D; subst end;
    match goal with F : fetches _ _ _ _ |- _ => destruct (fetches_known _ _ _ _ _ F K) as [-> _]; reflexivity end.
Qed.

(** calls that only look at, or change, headers *)
Definition header_call (o : sop) : Prop := match o with On _ (AskHeader _) | On _ (SetHeader _ _) => True | _ => False end.
Definition content_type_of (hs : list header) : option bytes := first_header (B "Content-Type") hs.
(** the record that has just been read, through calls that only concern headers *)
Definition lies (d : desk) (k : nat) (v : bytes) (hs : list header) (body : bytes) : Prop :=
  nth_error (d_recs d) k = Some (mkk (RWarc v) hs None (Some (Shared, false))) /\ d_left d = body.
Lemma lies_step gz d op x d' k v hs body : moves gz d op x d' -> header_call op -> lies d k v hs body -> lies d' k v (headers_after hs (calls_on k [op])) body.
Proof.
  intros M Hc [N L]. unfold lies. unfold calls_on. cbn [flat_map]. inversion M; subst; try contradiction; cbn [d_recs d_left]; cbn in Hc.
  - destruct (Nat.eqb_spec i k) as [->|Ne]; [rewrite N in H; injection H as <-; discriminate|]. rewrite put_other by exact Ne. auto.
  - assert (T : taken = []) by (destruct op0; try contradiction; inversion H1; reflexivity). subst taken. cbn in H2. subst left. split; [|reflexivity].
    destruct (Nat.eqb_spec i k) as [->|Ne]; [|rewrite put_other by exact Ne; exact N]. rewrite N in H. injection H as <-. rewrite (put_same _ _ _ _ N). destruct op0; try contradiction; inversion H1; subst; reflexivity.
  - destruct (Nat.eqb_spec i k) as [->|Ne]; [congruence|]. auto.
Qed.
Lemma headers_after_app hs a b : headers_after hs (a ++ b) = headers_after (headers_after hs a) b.
Proof. unfold headers_after. apply fold_left_app. Qed.
Lemma lies_all gz d ops xs d' k v body : moves_all gz d ops xs d' -> Forall header_call ops -> forall hs, lies d k v hs body -> lies d' k v (headers_after hs (calls_on k ops)) body.
Proof.
  intro H. induction H as [d|d op x d1 ops xs d2 M L IH]; intros Hc hs Hl; [exact Hl|]. inversion Hc as [|? ? C1 C2]; subst.
  specialize (IH C2 _ (lies_step _ _ _ _ _ _ _ _ _ M C1 Hl)). rewrite <- headers_after_app in IH. unfold calls_on in *. cbn [flat_map] in *. rewrite app_nil_r in IH. exact IH.
Qed.
Lemma lies_ask gz d x d' k v hs body : moves gz d (On k AskContent) x d' -> lies d k v hs body -> x = (Ret (VCall (VContent (content_type_of hs, Some body))), []) /\ knows d' k (content_type_of hs, Some body) /\ d_left d' = [].
Proof.
  intros M [N L]. inversion M; subst; try congruence.
  all: match goal with X : nth_error _ _ = Some ?q, D : does (viewed _ ?q) _ _ _ _ _ |- _ => rewrite N in X; injection X as <- end; try discriminate.
  match goal with D : does _ _ _ _ _ _ |- _ => inversion D; subst end. match goal with F : fetches _ _ _ _ |- _ => inversion F; subst end; cbn in *; try discriminate.
  match goal with X : Some _ = Some _ |- _ => injection X as <- <- end. split; [reflexivity|]. split.
  - eexists. split; [eapply put_same; exact N|]. reflexivity.
  - match goal with X : d_left d = d_left d ++ ?l |- _ => rewrite <- (app_nil_r (d_left d)) in X at 1; apply app_inv_head in X; subst; reflexivity end.
Qed.
Lemma next_lies gz pos a k d x d' w sep : stands pos a k d -> nth_error a k = Some (w, sep) -> moves gz d Next x d' -> lies d' k (w_version w) (w_headers w) (w_body w).
Proof.
  intros (S1 & S2 & S3) N M. assert (K : k < List.length a) by (apply nth_error_Some; congruence). assert (Z : List.length (d_recs d) <= k /\ k - List.length (d_recs d) = 0) by lia. clear S3. destruct Z as [Z1 Z2]. inversion M; subst.
  - rewrite S1 in H. destruct (skipn_cons _ _ _ _ H) as (N1 & _). rewrite N in N1. injection N1 as <- <-. split; [|reflexivity]. cbn [d_recs]. rewrite nth_error_app2 by lia. rewrite Z2. reflexivity.
  - rewrite S1 in H. apply (f_equal (@List.length _)) in H. rewrite skipn_length in H. cbn in H. lia.
Qed.
(** A record whose content is asked for before the next one is read has its own content,
    and keeps it for ever, however far one reads on and whatever one does with the records. *)
Theorem C88_asked_in_time : forall gz st pos a before mid after w sep, at_start gz st pos a -> archive_ok a ->
  let k := nexts before in let ops := before ++ [Next] ++ mid ++ [On k AskContent] ++ after in
  shelf_files_ok ops -> Forall header_call mid -> nth_error a k = Some (w, sep) ->
  let answer := (Ret (VCall (VContent (content_type_of (headers_after (w_headers w) (calls_on k mid)), Some (w_body w)))), []) in
  exists x1 x2 x3 s, shelf_run (mkshelf [] st) ops = (x1 ++ x2 ++ [answer] ++ x3, s) /\
    List.length x1 = List.length before /\ List.length x2 = S (List.length mid) /\
    forall i, nth_error after i = Some (On k AskContent) -> nth_error x3 i = Some answer.
Proof.
  intros gz st pos a before mid after w sep Hs Hok k ops Hf Hm N answer. destruct (C88_history gz st pos a ops Hs Hok Hf) as (xs & s & d & E & M). unfold ops in *.
  destruct (moves_app _ _ _ _ _ _ M) as (x1 & y & d1 & -> & M1 & M2). cbn [app] in M2. inversion M2 as [|? ? xn d2 ? y' ? Mn M3]; subst. destruct (moves_app _ _ _ _ _ _ M3) as (xm & y & d3 & -> & M4 & M5).
  cbn [app] in M5. inversion M5 as [|? ? xa d4 ? x3 ? Ma M6]; subst.
  pose proof (stands_all _ _ _ _ _ _ _ M1 0 (stands_start pos a)) as S1. cbn [Nat.add] in S1. pose proof (next_lies _ _ _ _ _ _ _ _ _ S1 N Mn) as L1.
  pose proof (lies_all _ _ _ _ _ _ _ _ M4 Hm _ L1) as L2. destruct (lies_ask _ _ _ _ _ _ _ _ Ma L2) as (-> & K & _).
  exists x1, (xn :: xm), x3, s. split; [exact E|]. split; [eapply moves_length; exact M1|]. split; [cbn; f_equal; eapply moves_length; exact M4|].
  intros i Hi. destruct (moves_nth _ _ _ _ _ _ _ M6 Hi) as (e1 & x & e2 & Q1 & Q2 & Q3). etransitivity; [exact Q3|]. f_equal. eapply knows_ask; [exact Q2|]. eapply knows_all; [exact Q1|exact K].
Qed.
(** *** Too late *)
Definition news (a : archive) : list kept_rec := map (fun p => new_rec (fst p)) a.
Lemma nexts_repeat m : nexts (repeat Next m) = m.
Proof. unfold nexts. induction m as [|m IH]; [reflexivity|]. cbn. f_equal. exact IH. Qed.
Lemma read_on gz pos a m : forall d xs d', stands pos a 0 d -> d_recs d = [] -> moves_all gz d (repeat Next m) xs d' ->
  d_recs d' = news (firstn m a) /\ (List.length a < m -> d_left d' = []) /\ (forall w sep, 0 < m -> nth_error a (m - 1) = Some (w, sep) -> d_left d' = w_body w).
Proof.
  intros d xs d' St R M. revert xs d' M. induction m as [|m IH]; intros xs d' M; [inversion M; subst; split; [exact R|]; split; [lia|lia]|].
  replace (repeat Next (S m)) with (repeat Next m ++ [Next]) in M by (rewrite <- repeat_cons; reflexivity).
  destruct (moves_app _ _ _ _ _ _ M) as (x1 & x2 & d1 & -> & M1 & M2). destruct (IH _ _ M1) as (I1 & I2 & I3). inversion M2 as [|? ? x d2 ? ? ? Mn M3]; subst. inversion M3; subst.
  pose proof (stands_all _ _ _ _ _ _ _ M1 0 St) as S1. rewrite nexts_repeat in S1. cbn [Nat.add] in S1. destruct S1 as (C & _ & _). inversion Mn; subst.
  - rewrite C in H. destruct (skipn_cons _ _ _ _ H) as (N1 & N2 & N3 & N4). split; [|split].
    + cbn [d_recs]. rewrite I1. unfold news. rewrite N3, map_app. reflexivity.
    + intro X. lia.
    + intros w0 sep0 _ X. replace (S m - 1) with m in X by lia. rewrite N1 in X. injection X as -> ->. reflexivity.
  - rewrite C in H. apply (f_equal (@List.length _)) in H. rewrite skipn_length in H. cbn in H. split; [|split].
    + cbn [d_recs]. rewrite I1, !firstn_all2 by lia. reflexivity.
    + reflexivity.
    + intros w0 sep0 _ X. exfalso. assert (Y : nth_error a (S m - 1) <> None) by congruence. apply nth_error_Some in Y. lia.
Qed.
Definition own_content (a : archive) (i : nat) (data : bytes) : outcome sval * bytes :=
  (Ret (VCall (VContent (match nth_error a i with Some (w, _) => content_type_of (w_headers w) | None => None end, Some data))), []).
(** content asked for when nothing is left in the shared file *)
Definition untouched (a : archive) (d : desk) (i : nat) : Prop := exists w sep, nth_error a i = Some (w, sep) /\ nth_error (d_recs d) i = Some (new_rec w).
Lemma ask_untouched gz a d i x d' : moves gz d (On i AskContent) x d' -> untouched a d i -> x = own_content a i (d_left d) /\ d_left d' = [] /\ (exists c, knows d' i c /\ x = (Ret (VCall (VContent c)), [])) /\ (forall j, j <> i -> nth_error (d_recs d') j = nth_error (d_recs d) j).
Proof.
  intros M (w & sep & N & R). unfold own_content. rewrite N. assert (L : lies d i (w_version w) (w_headers w) (d_left d)) by (split; [exact R|reflexivity]).
  destruct (lies_ask _ _ _ _ _ _ _ _ M L) as (-> & K & E). split; [reflexivity|]. split; [exact E|]. split; [eexists; split; [exact K|reflexivity]|]. intros j Hj. inversion M; subst; cbn [d_recs]; try reflexivity; apply put_other; congruence.
Qed.
Lemma ask_rest gz a i data js : forall d xs d', moves_all gz d (map (fun j => On j AskContent) js) xs d' -> d_left d = [] ->
  (forall j, In j js -> (exists c, knows d j c /\ (Ret (VCall (VContent c)), []) = own_content a j (if Nat.eqb j i then data else [])) \/ (j <> i /\ untouched a d j)) ->
  xs = map (fun j => own_content a j (if Nat.eqb j i then data else [])) js.
Proof.
  induction js as [|j js IH]; intros d xs d' M L H; cbn [map] in M; inversion M as [|? ? x d1 ? xs1 ? M1 M2]; subst; [reflexivity|]. cbn [map].
  destruct (H j (or_introl eq_refl)) as [(c & K & E)|[Ne U]].
  - pose proof (knows_ask _ _ _ _ _ _ M1 K) as ->. rewrite E. f_equal. assert (D1 : d_left d1 = [] /\ forall k, k <> j -> nth_error (d_recs d1) k = nth_error (d_recs d) k).
    { inversion M1; subst; cbn [d_left d_recs]; try (split; [exact L|intros; try reflexivity; apply put_other; congruence]).
      match goal with X : d_left d = _ ++ _ |- _ => rewrite L in X; symmetry in X; apply app_eq_nil in X as [_ ->] end. split; [reflexivity|]. intros; apply put_other; congruence. }
    destruct D1 as [D1 D2]. eapply IH; [exact M2|exact D1|]. intros k Hk. destruct (Nat.eq_dec k j) as [->|Nk].
    + left. exists c. split; [eapply knows_step; eassumption|exact E].
    + destruct (H k (or_intror Hk)) as [(c' & K' & E')|[Ne' (w & sep & U1 & U2)]]; [left; exists c'; split; [eapply knows_step; eassumption|exact E']|]. right. split; [exact Ne'|]. exists w, sep. split; [exact U1|]. rewrite D2 by exact Nk. exact U2.
  - destruct (ask_untouched _ _ _ _ _ _ M1 U) as (E & D1 & (c & K & E2) & D2). rewrite L in E. apply Nat.eqb_neq in Ne. rewrite Ne. rewrite E. f_equal. eapply IH; [exact M2|exact D1|].
    intros k Hk. destruct (Nat.eq_dec k j) as [->|Nk].
    + left. exists c. split; [exact K|]. rewrite Ne. rewrite <- E2. exact E.
    + destruct (H k (or_intror Hk)) as [(c' & K' & E')|[Ne' (w & sep & U1 & U2)]]; [left; exists c'; split; [eapply knows_step; eassumption|exact E']|]. right. split; [exact Ne'|]. exists w, sep. split; [exact U1|]. rewrite D2 by exact Nk. exact U2.
Qed.
(** [m] records are read and kept, and only then asked for their content, in any order and
    as often as one likes: the first one asked, whichever it is, gets the payload of the last
    record read, under its own type; all others get nothing. No call raises. *)
Theorem C88_too_late : forall gz st pos a m i js w sep, at_start gz st pos a -> archive_ok a ->
  0 < m <= List.length a -> i < m -> Forall (fun j => j < m) js -> nth_error a (m - 1) = Some (w, sep) ->
  exists xs s, shelf_run (mkshelf [] st) (repeat Next m ++ map (fun j => On j AskContent) (i :: js)) =
    (xs ++ own_content a i (w_body w) :: map (fun j => own_content a j (if Nat.eqb j i then w_body w else [])) js, s) /\ List.length xs = m.
Proof.
  intros gz st pos a m i js w sep Hs Hok Hm Hi Hj N.
  assert (Hf : shelf_files_ok (repeat Next m ++ map (fun j => On j AskContent) (i :: js))).
  { apply Forall_app. split; [apply Forall_forall; intros o X; apply repeat_spec in X; subst; discriminate|]. apply Forall_forall. intros o X. apply in_map_iff in X as (k & <- & _). discriminate. }
  destruct (C88_history gz st pos a _ Hs Hok Hf) as (xs & s & d & E & M). destruct (moves_app _ _ _ _ _ _ M) as (x1 & x2 & d1 & -> & M1 & M2).
  destruct (read_on gz pos a m _ _ _ (stands_start pos a) eq_refl M1) as (R & _ & L). specialize (L w sep ltac:(lia) N).
  assert (U : forall k, k < m -> untouched a d1 k).
  { intros k Hk. assert (K : nth_error a k <> None) by (apply nth_error_Some; lia). destruct (nth_error a k) as [[w' sep']|] eqn:Nk; [|contradiction]. exists w', sep'. split; [exact Nk|].
    rewrite R. unfold news. erewrite map_nth_error; [|rewrite <- (firstn_skipn m a) in Nk; rewrite nth_error_app1 in Nk; [exact Nk|]]; [reflexivity|]. rewrite firstn_length. lia. }
  cbn [map] in M2. inversion M2 as [|? ? x d2 ? x3 ? M3 M4]; subst. destruct (ask_untouched _ _ _ _ _ _ M3 (U i Hi)) as (E1 & D1 & (c & K & E2) & D2). rewrite L in E1.
  exists x1, s. pose proof (moves_length _ _ _ _ _ M1) as Len. rewrite repeat_length in Len. split; [|exact Len]. rewrite E. f_equal. f_equal. rewrite E1. f_equal.
  eapply ask_rest; [exact M4|exact D1|]. intros k Hk. rewrite Forall_forall in Hj. specialize (Hj k Hk). destruct (Nat.eqb_spec k i) as [->|Nk].
  - left. exists c. split; [exact K|]. rewrite <- E2. exact E1.
  - right. split; [exact Nk|]. destruct (U k Hj) as (w' & sep' & U1 & U2). exists w', sep'. split; [exact U1|]. rewrite D2 by exact Nk. exact U2.
Qed.
(** *** After the end: every record was read and kept, and the stream is at its end *)
Definition plain_call (o : sop) : Prop := match o with On _ (SetHeader _ _) | On _ (AssignFile _) => False | _ => True end.
(** what is left of the [i]-th record then: its headers, and no data *)
Definition spent (w : wrec) (k : kept_rec) : Prop :=
  k_class k = RWarc (w_version w) /\ k_headers k = w_headers w /\
  ((k_known k = None /\ exists u, k_file k = Some (Shared, u)) \/ (k_known k = Some (content_type_of (w_headers w), Some []) /\ k_file k = None)).
Definition over (a : archive) (d : desk) : Prop := Forall2 (fun p k => spent (fst p) k) a (d_recs d) /\ d_left d = [] /\ d_coming d = [].
Definition bare (w : wrec) (c : option (option bytes * option bytes)) f : kept_rec := mkk (RWarc (w_version w)) (w_headers w) c f.
Lemma spent_cases w k : spent w k -> (exists u, k = bare w None (Some (Shared, u))) \/ k = bare w (Some (content_type_of (w_headers w), Some [])) None.
Proof. destruct k as [c h kn f]. intros (C & H & [[K (u & F)]|[K F]]); cbn in *; subst; [left; exists u; reflexivity|right; reflexivity]. Qed.
Lemma bare_spent w u : spent w (bare w None (Some (Shared, u))).
Proof. split; [reflexivity|]. split; [reflexivity|]. left. split; [reflexivity|]. exists u. reflexivity. Qed.
Lemma known_spent w : spent w (bare w (Some (content_type_of (w_headers w), Some [])) None).
Proof. split; [reflexivity|]. split; [reflexivity|]. right. split; reflexivity. Qed.
Lemma spent_fetch w k x t o op : spent w k -> fetches (viewed [] k) x t o -> x = Ret (content_type_of (w_headers w), Some []) /\ spent w (again k op o).
Proof.
  intros S F. destruct (spent_cases w k S) as [(u & ->)| ->]; inversion F; subst; cbn in *; try discriminate.
  - match goal with X : Some _ = Some _ |- _ => injection X as <- <- end. split; [reflexivity|]. apply known_spent.
  - match goal with X : Some _ = Some _ |- _ => injection X as <- end. split; [reflexivity|]. apply known_spent.
Qed.
Lemma spent_same w k op : spent w k -> plain_call (On 0 op) -> spent w (again k op (viewed [] k)).
Proof. intros S P. destruct (spent_cases w k S) as [(u & ->)| ->]; [|apply known_spent]. destruct op; try contradiction; apply (bare_spent w u). Qed.
Lemma spent_keep w k op x out t o : spent w k -> does (viewed [] k) op x out t o -> plain_call (On 0 op) -> spent w (again k op o).
Proof.
  intros S D P. inversion D; subst; cbn in P; try contradiction; try (apply spent_same; [exact S|exact I]).
  all: try match goal with F : fetches _ _ _ _ |- _ => eapply spent_fetch; eassumption end.
  all: destruct (spent_cases w k S) as [(u0 & ->)| ->]; cbn in *; try discriminate; try congruence.
  - match goal with X : Some _ = Some _ |- _ => injection X as X1 X2 end. symmetry in X1. apply app_eq_nil in X1 as [-> ->]. apply bare_spent.
  - match goal with X : Some _ = Some _ |- _ => injection X as X1 X2 end. subst. apply bare_spent.
  - apply bare_spent.
Qed.
Lemma spent_content w k x out t o : spent w k -> does (viewed [] k) AskContent x out t o -> x = Ret (VContent (content_type_of (w_headers w), Some [])) /\ out = [].
Proof. intros S D. inversion D; subst. match goal with F : fetches _ _ _ _ |- _ => destruct (spent_fetch w k _ _ _ AskContent S F) as [-> _] end. split; reflexivity. Qed.
Lemma spent_read w k n x out t o : spent w k -> does (viewed [] k) (ReadFile n) x out t o -> (x = Ret (VBytes []) \/ x = Raise EAttributeError) /\ out = [].
Proof.
  intros S D. destruct (spent_cases w k S) as [(u0 & ->)| ->]; inversion D; subst; cbn in *; try discriminate; try (split; [right; reflexivity|reflexivity]).
  - match goal with X : Some _ = Some _ |- _ => injection X as X1 X2 end. symmetry in X1. apply app_eq_nil in X1 as [-> ->]. split; [left; reflexivity|reflexivity].
  - match goal with X : Some _ = Some _ |- _ => injection X as X1 X2 end. subst. split; [left; reflexivity|reflexivity].
Qed.
Lemma spent_write w k gz nl x out t o : spent w k -> does (viewed [] k) (Write gz nl) x out t o ->
  (x = Ret VNone /\ out = packed gz (file_text (w_version w) nl (w_headers w) [])) \/
  (x = Ret VNone /\ out = packed gz (known_text (w_version w) nl (w_headers w) (content_type_of (w_headers w)) (Some []))) \/ (x = Raise E_used /\ out = []).
Proof.
  intros S D. destruct (spent_cases w k S) as [(u0 & ->)| ->]; inversion D; subst; cbn in *; try discriminate; auto.
  - match goal with X : Some _ = Some _ |- _ => injection X as X1 X2 end. match goal with X : RWarc _ = RWarc _ |- _ => injection X as <- end. subst. auto.
  - match goal with X : Some _ = Some _ |- _ => injection X as X1 X2 end. match goal with X : RWarc _ = RWarc _ |- _ => injection X as <- end. subst. auto.
Qed.
Lemma new_write w gz nl x out t o : does (viewed [] (new_rec w)) (Write gz nl) x out t o -> x = Ret VNone /\ out = packed gz (file_text (w_version w) nl (w_headers w) []).
Proof.
  intro D. inversion D; subst; cbn in *; try discriminate. match goal with X : Some _ = Some _ |- _ => injection X as X1 end. match goal with X : RWarc _ = RWarc _ |- _ => injection X as <- end. subst. auto.
Qed.
Lemma new_length w x out t o l n : does (viewed [] (new_rec w)) AskLength x out t o -> first_header (B "Content-Length") (w_headers w) = Some l -> py_int 10 l = Some n -> x = Ret (VLength n).
Proof.
  intros D F P. assert (L : length_header (viewed [] (new_rec w)) = Some l) by exact F. inversion D; subst; try congruence.
  all: match goal with X : o_known _ = None -> _ |- _ => rewrite (X eq_refl) in L; discriminate end.
Qed.
Lemma over_call gz a d i op x d' w sep : over a d -> moves gz d (On i op) x d' -> nth_error a i = Some (w, sep) -> exists k y out t o, nth_error (d_recs d) i = Some k /\ spent w k /\ x = (omap VCall y, out) /\ does (viewed [] k) op y out t o /\ d_recs d' = put (d_recs d) i (again k op o) /\ d_left d' = [] /\ d_coming d' = [].
Proof.
  intros (F & L & C) M N. assert (K : exists k, nth_error (d_recs d) i = Some k /\ spent w k).
  { clear - F N. revert i N. induction F as [|p k a ks H F IH]; intros [|i] N; cbn in N; try discriminate; [injection N as ->; exists k; split; [reflexivity|exact H]|exact (IH i N)]. }
  destruct K as (k & Nk & S). inversion M; subst; rewrite Nk in *; try discriminate; match goal with X : Some _ = Some _ |- _ => injection X as <- end.
  - eexists _, _, _, _, _. split; [reflexivity|]. split; [exact S|]. split; [reflexivity|]. split; [eassumption|]. cbn. auto.
  - rewrite L in *. match goal with X : [] = _ ++ _ |- _ => symmetry in X; apply app_eq_nil in X as [-> ->] end. eexists _, _, _, _, _. split; [reflexivity|]. split; [exact S|]. split; [reflexivity|]. split; [eassumption|]. cbn. auto.
Qed.
Lemma put_both {A C} (P : A -> C -> Prop) l m i x : Forall2 P l m -> (forall y, nth_error l i = Some y -> P y x) -> Forall2 P l (put m i x).
Proof.
  intro H. revert i. induction H as [|a c l m H1 H2 IH]; intros [|i] Hx; cbn [put]; constructor; auto.
Qed.
Lemma over_step gz a d op x d' : over a d -> moves gz d op x d' -> plain_call op -> over a d'.
Proof.
  intros O M P. pose proof O as (F & L & C). destruct op as [|i op].
  - inversion M; subst; [congruence|]. repeat split; auto.
  - destruct (nth_error a i) as [[w sep]|] eqn:N.
    + destruct (over_call _ _ _ _ _ _ _ _ _ O M N) as (k & y & out & t & o & Nk & S & _ & D & R & L' & C'). split; [|auto]. rewrite R. apply put_both; [exact F|]. intros p Np. rewrite N in Np. injection Np as <-. cbn [fst]. eapply spent_keep; [exact S|exact D|]. destruct op; exact P.
    + assert (Z : nth_error (d_recs d) i = None) by (apply nth_error_None; rewrite <- (Forall2_len _ _ _ F); apply nth_error_None; exact N). inversion M; subst; try congruence.
Qed.
Lemma over_all gz a d ops xs d' : moves_all gz d ops xs d' -> Forall plain_call ops -> over a d -> over a d'.
Proof. intro H. induction H as [|d op x d1 ops xs d2 M L IH]; intros P O; [exact O|]. inversion P; subst. apply IH; [assumption|]. eapply over_step; eassumption. Qed.
Lemma over_start gz pos a xs d : moves_all gz (mkdesk [] [] pos a) (repeat Next (S (List.length a))) xs d -> over a d /\ d_recs d = news a.
Proof.
  intro M. destruct (read_on gz pos a _ _ _ _ (stands_start pos a) eq_refl M) as (R & L & _). rewrite firstn_all2 in R by lia.
  pose proof (stands_all _ _ _ _ _ _ _ M 0 (stands_start pos a)) as (C & _). rewrite nexts_repeat, skipn_all2 in C by lia. split; [|exact R]. split; [|split; [apply L; lia|exact C]].
  rewrite R. unfold news. clear. induction a as [|p a IH]; [constructor|]. cbn [map]. constructor; [apply (bare_spent (fst p) false)|exact IH].
Qed.
Definition shelf_plain_ok ops : Forall plain_call ops -> shelf_files_ok ops.
Proof. apply Forall_impl. intros o P i rd ->. contradiction. Qed.
Lemma plain_repeat m : Forall plain_call (repeat Next m).
Proof. apply Forall_forall. intros o X. apply repeat_spec in X. subst. exact I. Qed.
(** The whole stream has been read, say by list(), and the records kept. Then, whatever
    is called on them (but for setting headers or giving them another content file): content
    is always the record's type and no data, reading the content file never gives a byte,
    and a write, unless refused, writes the record without any data. *)
Theorem C88_after_the_end : forall gz st pos a after, at_start gz st pos a -> archive_ok a -> Forall plain_call after ->
  exists xs ys s, shelf_run (mkshelf [] st) (repeat Next (S (List.length a)) ++ after) = (xs ++ ys, s) /\ List.length xs = S (List.length a) /\
    forall p i op w sep, nth_error after p = Some (On i op) -> nth_error a i = Some (w, sep) ->
      match op with
      | AskContent => nth_error ys p = Some (own_content a i [])
      | ReadFile _ => nth_error ys p = Some (Ret (VCall (VBytes [])), []) \/ nth_error ys p = Some (Raise EAttributeError, [])
      | Write z nl => nth_error ys p = Some (Ret (VCall VNone), packed z (file_text (w_version w) nl (w_headers w) [])) \/
          nth_error ys p = Some (Ret (VCall VNone), packed z (known_text (w_version w) nl (w_headers w) (content_type_of (w_headers w)) (Some []))) \/
          nth_error ys p = Some (Raise E_used, [])
      | _ => True
      end.
Proof.
  intros gz st pos a after Hs Hok Hp. destruct (C88_history gz st pos a (repeat Next (S (List.length a)) ++ after) Hs Hok) as (xs & s & d & E & M).
  { apply shelf_plain_ok, Forall_app. split; [apply plain_repeat|exact Hp]. }
  destruct (moves_app _ _ _ _ _ _ M) as (x1 & x2 & d1 & -> & M1 & M2). destruct (over_start _ _ _ _ _ M1) as [O _]. exists x1, x2, s. split; [exact E|]. split; [etransitivity; [exact (moves_length _ _ _ _ _ M1)|apply repeat_length]|].
  intros p i op w sep Np N. destruct (moves_nth _ _ _ _ _ _ _ M2 Np) as (e1 & x & e2 & Q1 & Q2 & Q3).
  assert (O1 : over a e1) by (eapply over_all; [exact Q1| |exact O]; apply Forall_forall; intros o X; rewrite Forall_forall in Hp; apply Hp; rewrite <- (firstn_skipn p after); apply in_or_app; left; exact X).
  destruct (over_call _ _ _ _ _ _ _ _ _ O1 Q2 N) as (k & y & out & t & o & _ & S & -> & D & _). destruct op; try exact I.
  - destruct (spent_content _ _ _ _ _ _ S D) as [-> ->]. unfold own_content. rewrite N. exact Q3.
  - destruct (spent_read _ _ _ _ _ _ _ S D) as [[-> | ->] ->]; [left|right]; exact Q3.
  - destruct (spent_write _ _ _ _ _ _ _ _ S D) as [[-> ->]|[[-> ->]|[-> ->]]]; [left|right; left|right; right]; exact Q3.
Qed.
(** Writing them all out then, each once: every record is written with the headers it was
    read with, the Content-Length that goes with its payload among them, and no payload. *)
Theorem C88_copied_after_the_end : forall gz st pos a z nl, at_start gz st pos a -> archive_ok a ->
  exists xs s, shelf_run (mkshelf [] st) (repeat Next (S (List.length a)) ++ map (fun i => On i (Write z nl)) (seq 0 (List.length a))) =
      (xs ++ map (fun p => (Ret (VCall VNone), packed z (file_text (w_version (fst p)) nl (w_headers (fst p)) []))) a, s) /\ List.length xs = S (List.length a) /\
    Forall (fun p => declared_length (w_headers (fst p)) 0 = Z.of_nat (List.length (w_body (fst p)))) a.
Proof.
  intros gz st pos a z nl Hs Hok. destruct (C88_history gz st pos a (repeat Next (S (List.length a)) ++ map (fun i => On i (Write z nl)) (seq 0 (List.length a))) Hs Hok) as (xs & s & d & E & M).
  { apply shelf_plain_ok, Forall_app. split; [apply plain_repeat|]. apply Forall_forall. intros o X. apply in_map_iff in X as (i & <- & _). exact I. }
  destruct (moves_app _ _ _ _ _ _ M) as (x1 & x2 & d1 & -> & M1 & M2). destruct (over_start _ _ _ _ _ M1) as [O R]. exists x1, s. split; [|split].
  - rewrite E. do 2 f_equal. assert (G : forall b i d xs d', over a d -> a = firstn i a ++ b -> i = List.length a - List.length b -> List.length b <= List.length a -> (forall j w sep, i <= j -> nth_error a j = Some (w, sep) -> nth_error (d_recs d) j = Some (new_rec w)) ->
      moves_all gz d (map (fun i => On i (Write z nl)) (seq i (List.length b))) xs d' -> xs = map (fun p => (Ret (VCall VNone), packed z (file_text (w_version (fst p)) nl (w_headers (fst p)) []))) b).
    { clear - gz. induction b as [|[w sep] b IH]; intros i d xs d' O Ea Ei Lb H M; cbn [List.length seq map] in *; inversion M as [|? ? x e1 ? xs1 ? M1 M2]; subst; [reflexivity|].
      set (i := List.length a - S (List.length b)) in *. assert (N : nth_error a i = Some (w, sep)) by (rewrite Ea, nth_error_app2 by (rewrite firstn_length; lia); rewrite firstn_length; replace (i - Nat.min i (List.length a)) with 0 by lia; reflexivity).
      destruct (over_call _ _ _ _ _ _ _ _ _ O M1 N) as (k & y & out & t & o & Nk & S & -> & D & R & _). rewrite (H i w sep (Nat.le_refl _) N) in Nk. injection Nk as <-. destruct (new_write _ _ _ _ _ _ _ D) as [-> ->]. cbn [map fst]. f_equal.
      apply (IH (Datatypes.S i) e1 xs1 d').
      - eapply over_step; [exact O|exact M1|exact I].
      - rewrite Ea at 1. destruct (skipn_cons a i (w, sep) b) as (_ & _ & X & _); [rewrite Ea at 1; rewrite skipn_app, firstn_length, skipn_all2 by (rewrite firstn_length; lia); replace (i - Nat.min i (List.length a)) with 0 by lia; reflexivity|]. rewrite X, <- app_assoc. reflexivity.
      - lia.
      - lia.
      - intros j w' sep' Lj Nj. rewrite R, put_other by lia. eapply H; [|exact Nj]. lia.
      - exact M2. }
    eapply (G a 0 d1); [exact O|reflexivity|lia|lia| |exact M2]. intros j w sep _ N. rewrite R. unfold news. erewrite map_nth_error; [|exact N]. reflexivity.
  - rewrite (moves_length _ _ _ _ _ M1), repeat_length. reflexivity.
  - eapply Forall_impl; [|exact Hok]. intros p ((_ & _ & _ & H) & _). exact H.
Qed.
(** And content_length goes on announcing what content will not give. *)
Theorem C88_length_after_the_end : forall gz st pos a i w sep l n, at_start gz st pos a -> archive_ok a -> nth_error a i = Some (w, sep) ->
  first_header (B "Content-Length") (w_headers w) = Some l -> py_int 10 l = Some n ->
  exists xs s, shelf_run (mkshelf [] st) (repeat Next (S (List.length a)) ++ [On i AskLength; On i AskContent]) = (xs ++ [(Ret (VCall (VLength n)), []); own_content a i []], s) /\ List.length xs = S (List.length a).
Proof.
  intros gz st pos a i w sep l n Hs Hok N Fl Pi. destruct (C88_history gz st pos a (repeat Next (S (List.length a)) ++ [On i AskLength; On i AskContent]) Hs Hok) as (xs & s & d & E & M).
  { apply shelf_plain_ok, Forall_app. split; [apply plain_repeat|]. repeat constructor. }
  destruct (moves_app _ _ _ _ _ _ M) as (x1 & x2 & d1 & -> & M1 & M2). destruct (over_start _ _ _ _ _ M1) as [O R]. exists x1, s. split; [|etransitivity; [exact (moves_length _ _ _ _ _ M1)|apply repeat_length]].
  rewrite E. do 2 f_equal. inversion M2 as [|? ? x e1 ? xs1 ? M3 M4]; subst. inversion M4 as [|? ? x' e2 ? xs2 ? M5 M6]; subst. inversion M6; subst.
  destruct (over_call _ _ _ _ _ _ _ _ _ O M3 N) as (k & y & out & t & o & Nk & S & -> & D & _). rewrite R in Nk. unfold news in Nk. erewrite map_nth_error in Nk by exact N. injection Nk as <-. pose proof (new_length _ _ _ _ _ _ _ D Fl Pi) as ->.
  assert (out = []) as -> by (inversion D; reflexivity). f_equal.
  pose proof (over_step _ _ _ _ _ _ O M3 I) as O1. destruct (over_call _ _ _ _ _ _ _ _ _ O1 M5 N) as (k' & y' & out' & t' & o' & _ & S' & -> & D' & _). destruct (spent_content _ _ _ _ _ _ S' D') as [-> ->]. unfold own_content. rewrite N. reflexivity.
Qed.

(** ** Concrete cases *)
Definition c88_rec (type body : string) : wrec :=
  mkw (B "WARC/1.0") [(B "WARC-Type", B "resource"); (B "Content-Type", B type); (B "Content-Length", dec_nat (String.length body))] (B body).
Definition c88_archive : archive := [(c88_rec "text/a" "first", terminator); (c88_rec "text/b" "the second", terminator); (c88_rec "text/c" "3rd", terminator)].
Definition c88_stream : stream := new_stream SPlain (mkfile (archive_text c88_archive) 0 true) PWarc.
Example C88_case : at_start false c88_stream 0 c88_archive /\ archive_ok c88_archive.
Proof. split; [repeat split|]. repeat (constructor; [split; [apply wrec_okb_sound; reflexivity|apply terminator_ok]|]). constructor. Qed.
Definition c88_gz_stream : stream := new_stream SGzipRecord (mkfile (archive_text c88_archive) 0 true) PWarc.
Example C88_gz_case : at_start true c88_gz_stream 0 c88_archive /\ archive_ok c88_archive.
Proof. split; [repeat split|apply C88_case]. Qed.
Definition contents (xs : list (outcome sval * bytes)) : list (outcome sval) := filter (fun x => match x with Ret (VCall _) | Raise _ => true | _ => false end) (map fst xs).
Definition c88_says (type data : string) : outcome sval := Ret (VCall (VContent (Some (B type), Some (B data)))).
(** asked in time, and again at the end *)
Example C88_in_time_case : contents (fst (shelf_run (mkshelf [] c88_stream) [Next; On 0 AskContent; Next; On 1 AskContent; On 0 AskContent; Next; On 2 AskContent; Next; On 0 AskContent; On 1 AskContent; On 2 AskContent])) =
  [c88_says "text/a" "first"; c88_says "text/b" "the second"; c88_says "text/a" "first"; c88_says "text/c" "3rd"; c88_says "text/a" "first"; c88_says "text/b" "the second"; c88_says "text/c" "3rd"].
Proof. vm_compute. reflexivity. Qed.
(** too late: the second record's payload as the first one's content *)
Example C88_too_late_case : contents (fst (shelf_run (mkshelf [] c88_stream) [Next; Next; On 0 AskContent; On 1 AskContent; On 0 AskContent])) =
  [c88_says "text/a" "the second"; c88_says "text/b" ""; c88_says "text/a" "the second"].
Proof. vm_compute. reflexivity. Qed.
Example C88_too_late_gz_case : contents (fst (shelf_run (mkshelf [] c88_gz_stream) [Next; Next; On 1 (ReadFile (Some 4)); On 0 AskContent; On 1 AskContent])) =
  [Ret (VCall (VBytes (B "the "))); c88_says "text/a" "second"; c88_says "text/b" ""].
Proof. vm_compute. reflexivity. Qed.
(** after the end: the length is still announced, there is no content, and what is written is empty *)
Example C88_after_the_end_case : contents (fst (shelf_run (mkshelf [] c88_stream) [Next; Next; Next; Next; On 1 AskLength; On 1 AskContent; On 2 (ReadFile None); On 0 AskContent])) =
  [Ret (VCall (VLength 10)); c88_says "text/b" ""; Ret (VCall (VBytes [])); c88_says "text/a" ""].
Proof. vm_compute. reflexivity. Qed.
Example C88_copied_after_the_end_case : map snd (skipn 4 (fst (shelf_run (mkshelf [] c88_stream) [Next; Next; Next; Next; On 2 (Write None CRLF)]))) =
  [c86_text ["WARC/1.0"; "WARC-Type: resource"; "Content-Type: text/c"; "Content-Length: 3"]%string ""%string].
Proof. vm_compute. reflexivity. Qed.
