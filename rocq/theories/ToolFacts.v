(** Lemmas about the tools' loops: opening, iteration that stops at an exception,
    iteration over archives in any accepted layout. *)
From Verif Require Export Tools PropsRecord PropsParse.
From Coq Require Import String List Lia.
Open Scope list_scope.

(** ** Specification: what a file holds *)
(** the file [i] is an uncompressed archive text, or a compressed one (by its name or
    by its first two bytes) *)
Definition plain_file (i : input) (text : bytes) : Prop :=
  (forall t, in_name i <> t ++ B ".gz") /\ (forall t, in_data i <> [31; 139]%N ++ t) /\ in_data i = text.
Definition gz_file (gunzip : bytes -> bytes) (i : input) (text : bytes) : Prop :=
  ((exists t, in_name i = t ++ B ".gz") \/ (exists t, in_data i = [31; 139]%N ++ t)) /\ gunzip (in_data i) = text.
Definition file_holds (gunzip : bytes -> bytes) (i : input) (text : bytes) : Prop :=
  plain_file i text \/ gz_file gunzip i text.

Lemma startswith_iff p s : startswith p s = true <-> exists t, s = p ++ t.
Proof.
  revert s. induction p as [|x p IH]; intro s; cbn [startswith app].
  - split; [eauto|reflexivity].
  - destruct s as [|y s].
    + split; [discriminate|]. intros [t H]. discriminate.
    + rewrite andb_true_iff, N.eqb_eq, IH. split.
      * intros [-> [t ->]]. eauto.
      * intros [t H]. injection H as -> ->. eauto.
Qed.
Lemma endswith_iff p s : endswith p s = true <-> exists t, s = t ++ p.
Proof.
  unfold endswith. rewrite startswith_iff. split.
  - intros [t H]. exists (rev t). rewrite <- (rev_involutive s), H, rev_app_distr, rev_involutive. reflexivity.
  - intros [t ->]. exists (rev t). apply rev_app_distr.
Qed.
(** opening *)
Lemma open_plain gunzip i text : plain_file i text ->
  open_input gunzip i = Ret (new_stream SPlain (mkfile text 0 true) PWarc).
Proof.
  intros (Hn & Hd & <-). unfold open_input, open_stream.
  assert (E : endswith (B ".gz") (in_name i) = false).
  { destruct (endswith (B ".gz") (in_name i)) eqn:E; [|reflexivity]. apply endswith_iff in E as [t E]. destruct (Hn t E). }
  rewrite E. destruct (C25_gzip_detection (mkfile (in_data i) 0 true)) as [Hs Hg].
  destruct (is_gzip_file (mkfile (in_data i) 0 true)) as [b f'] eqn:Ei. cbn [fst snd] in *. subst f'.
  destruct b; [|reflexivity]. destruct Hg as [Hg _]. destruct (Hg eq_refl) as [t Ht]. destruct (Hd t Ht).
Qed.
Lemma open_gz gunzip i text : gz_file gunzip i text ->
  open_input gunzip i = Ret (new_stream SGzipRecord (mkfile text 0 true) PWarc).
Proof.
  intros (H & <-). unfold open_input, open_stream.
  destruct (endswith (B ".gz") (in_name i)) eqn:E; [reflexivity|].
  assert (Hd : exists t, in_data i = [31; 139]%N ++ t).
  { destruct H as [[t H]|H]; [|exact H]. rewrite H in E. assert (endswith (B ".gz") (t ++ B ".gz") = true) by (apply endswith_iff; eauto). congruence. }
  destruct (C25_gzip_detection (mkfile (in_data i) 0 true)) as [Hs Hg].
  destruct (is_gzip_file (mkfile (in_data i) 0 true)) as [b f'] eqn:Ei. cbn [fst snd] in *. subst f'.
  destruct Hg as [_ Hg]. rewrite (Hg Hd). reflexivity.
Qed.
Lemma open_holds gunzip i text : file_holds gunzip i text ->
  exists st, open_input gunzip i = Ret st /\ at_text st 0 text /\ s_parser st = PWarc /\ s_kind st <> SGzipFile.
Proof.
  intros [H|H]; [rewrite (open_plain _ _ _ H)|rewrite (open_gz _ _ _ H)]; eexists; (split; [reflexivity|]); (split; [|split; [reflexivity|discriminate]]);
  (left; split; [reflexivity|]; exists []; split; [reflexivity|]; split; [split; [intros c []|left; reflexivity]|reflexivity]).
Qed.

(** ** Iteration up to the first exception *)
Lemma iter_loop_raises {S} (body : S -> stream -> record -> outcome unit * S * stream) step a w sep b e (sx : S -> S) :
  forall fuel s st start,
  iterates body step a -> archive_ok a -> wrec_ok w -> length a < fuel ->
  (forall s st after, in_payload st (w_body w) after -> exists st', body s st (handed w) = (Raise e, sx s, st')) ->
  at_text st start (archive_text (a ++ (w, sep) :: b)) -> s_parser st = PWarc -> s_kind st <> SGzipFile ->
  exists st', iter_loop fuel body s st = (Raise e, sx (fold_left step (map fst a) s), st').
Proof.
  induction a as [|[w0 sep0] a IH]; intros fuel s st start Hv Hok Hw Hf Hx Hat Hp Hk.
  - destruct fuel as [|fuel]; [simpl in Hf; lia|]. cbn [iter_loop map fold_left].
    destruct (read_first st start w sep b false Hat Hp Hk Hw) as (st1 & E & Hi & _). rewrite E.
    destruct (Hx s st1 _ Hi) as [st' E']. rewrite E'. eauto.
  - destruct fuel as [|fuel]; [simpl in Hf; lia|]. cbn [iter_loop map fold_left fst].
    inversion Hok as [|? ? [Hw0 Hsep0] Hok']; subst. cbn [fst snd] in Hw0, Hsep0.
    destruct (read_first st start w0 sep0 (a ++ (w, sep) :: b) false Hat Hp Hk Hw0) as (st1 & E & Hi & Hk1 & Hp1 & Hf1 & Hpos1).
    rewrite E. destruct (Hv s st1 w0 sep0 _ (or_introl eq_refl) Hi) as (st2 & E2 & Hu). rewrite E2.
    destruct (used_payload _ _ _ _ Hi Hu) as (l & _ & Hp2 & Hk2 & _).
    apply (IH fuel _ st2 (start + length (wrec_text w0) + length sep0)); try assumption.
    + intros s0 st0 w1 sep1 aft0 Hin. apply (Hv s0 st0 w1 sep1 aft0). right. exact Hin.
    + simpl in Hf; lia.
    + apply (at_text_next st1 (w_body w0) st2 sep0); try assumption. lia.
    + congruence.
    + congruence.
Qed.
Lemma for_records_raises {S} (body : S -> stream -> record -> outcome unit * S * stream) step a w sep b e (sx : S -> S) s st start :
  iterates body step a -> archive_ok a -> wrec_ok w ->
  (forall s st after, in_payload st (w_body w) after -> exists st', body s st (handed w) = (Raise e, sx s, st')) ->
  at_text st start (archive_text (a ++ (w, sep) :: b)) -> s_parser st = PWarc -> s_kind st <> SGzipFile ->
  exists st', for_records body s st = (Raise e, sx (fold_left step (map fst a) s), st').
Proof.
  intros Hv Hok Hw Hx Hat Hp Hk. apply (iter_loop_raises body step a w sep b e sx _ s st start); try assumption.
  destruct (at_text_fresh _ _ _ Hat) as (st0 & _ & _ & Hr & _ & _ & _ & Hf0).
  rewrite <- Hf0. pose proof (rest_fuel st0) as H. rewrite Hr in H. pose proof (archive_text_records (a ++ (w, sep) :: b)) as H1.
  rewrite app_length in H1. cbn [length] in H1. lia.
Qed.

(** ** Archives in any accepted layout *)
Record grec : Type := mkg {
  g_junk : list bytes;                       (* lines before the version line *)
  g_pfx : bytes; g_ws : bytes; g_tag : bytes; g_num : bytes; g_nl : bytes;
  g_entries : list entry;
  g_crlf : bool;                             (* how the blank line ends *)
  g_body : bytes }.
Definition g_vline (g : grec) : bytes := g_pfx g ++ g_ws g ++ g_tag g ++ g_num g ++ g_nl g.
Definition g_text (g : grec) : bytes :=
  concat (g_junk g) ++ g_vline g ++ entries_of (g_entries g) ++ eol (g_crlf g) ++ g_body g.
Definition g_ok (g : grec) : Prop :=
  Forall is_line (g_junk g) /\ Forall (fun l => version_line l = false) (g_junk g) /\
  List.length (junk_lines (g_junk g)) <= 5 /\
  is_line (g_vline g) /\ version_as (g_vline g) (g_pfx g) (g_ws g) (g_tag g) (g_num g) (g_nl g) /\
  In (g_num g) known_numbers /\ Forall entry_ok (g_entries g) /\
  declared_length (map entry_header (g_entries g)) 0 = Z.of_nat (List.length (g_body g)).
(** what it means *)
Definition g_wrec (g : grec) : wrec := mkw (g_ws g ++ g_tag g ++ g_num g) (map entry_header (g_entries g)) (g_body g).
Definition g_errors (g : grec) : list perr :=
  map ErrIgnored (junk_lines (g_junk g)) ++ vnl_errors (g_nl g) ++ prefix_errors (g_pfx g) ++ concat (map entry_errors (g_entries g)).
Definition g_handed (g : grec) : record := parsed_rec (w_version (g_wrec g)) (w_headers (g_wrec g)) (g_errors g).
Definition garchive : Type := list (grec * bytes).
Definition garchive_text (a : garchive) : bytes := concat (map (fun p => g_text (fst p) ++ snd p) a).
Definition garchive_ok (a : garchive) : Prop := Forall (fun p => g_ok (fst p) /\ sep_ok (snd p)) a.

Lemma garchive_text_cons g sep a : garchive_text ((g, sep) :: a) = g_text g ++ sep ++ garchive_text a.
Proof. unfold garchive_text. cbn [map concat fst snd]. rewrite <- app_assoc. reflexivity. Qed.
Lemma garchive_text_records a : garchive_ok a -> length a <= length (garchive_text a).
Proof.
  induction 1 as [|[g s] a [Hg _] _ IH]; [simpl; lia|]. rewrite garchive_text_cons, !app_length.
  assert (0 < length (g_text g)).
  { unfold g_text. rewrite !app_length. destruct Hg as (_ & _ & _ & (x & _ & Hx) & _). cbn [fst] in Hx. rewrite Hx. unfold line_text. rewrite app_length. cbn [length]. lia. }
  cbn [length]. lia.
Qed.
Lemma read_first_g st start g sep a b :
  at_text st start (garchive_text ((g, sep) :: a)) -> s_parser st = PWarc -> s_kind st = SPlain -> g_ok g ->
  exists st1,
  read_record st b = (Ret (if b then Some (start + List.length (concat (g_junk g)) + List.length (g_pfx g)) else None, Some (g_handed g), []), st1) /\
  in_payload st1 (g_body g) (sep ++ garchive_text a) /\
  s_kind st1 = SPlain /\ s_parser st1 = PWarc /\ pos st1 + length (g_body g) = start + length (g_text g).
Proof.
  intros Hat Hp Hk Hg. destruct (at_text_fresh _ _ _ Hat) as (st0 & Heq & He & Hr & Hpos & Hk0 & Hp0 & _).
  rewrite Heq. rewrite garchive_text_cons in Hr. destruct Hg as (H1 & H2 & H3 & H4 & H5 & H6 & H7 & H8).
  assert (Hrd : ready st0 start (concat (g_junk g) ++ g_vline g ++ entries_of (g_entries g) ++ eol (g_crlf g) ++ (g_body g ++ sep ++ garchive_text a))).
  { split; [congruence|]. split; [congruence|]. split; [exact He|]. split; [exact Hpos|]. change (f_rest (s_fh st0)) with (rest st0). rewrite Hr.
    unfold g_text. rewrite <- !app_assoc. reflexivity. }
  destruct (read_general st0 start (g_junk g) (g_vline g) (g_pfx g) (g_ws g) (g_tag g) (g_num g) (g_nl g) (g_entries g) (g_crlf g) _ b Hrd H1 H2 H3 H4 H5 H6 H7)
    as (st1 & E & He1 & Hr1 & Hk1 & Hp1 & _ & Hpos1).
  exists st1. split; [exact E|]. split; [split; [rewrite He1, H8; reflexivity|exact Hr1]|]. split; [exact Hk1|]. split; [exact Hp1|].
  unfold pos, f_tell in *. unfold g_text. rewrite !app_length. rewrite Hpos1. lia.
Qed.
Definition giterates {S} (body : S -> stream -> record -> outcome unit * S * stream)
    (step : S -> grec -> S) (a : garchive) : Prop :=
  forall s st g sep after, In (g, sep) a -> in_payload st (g_body g) after ->
     exists st', body s st (g_handed g) = (Ret tt, step s g, st') /\ used st (length (g_body g)) st'.
Lemma read_last_g st start b : at_text st start (garchive_text []) -> s_parser st = PWarc -> s_kind st = SPlain -> exists st1,
  read_record st b = (Ret (item_offset (s_kind st) b start, None, []), st1).
Proof. intros H1 H2 H3. apply read_last; [exact H1|exact H2|rewrite H3; discriminate]. Qed.
Lemma giter_loop_archive {S} (body : S -> stream -> record -> outcome unit * S * stream) step a :
  forall fuel s st start,
  giterates body step a -> garchive_ok a -> length a < fuel ->
  at_text st start (garchive_text a) -> s_parser st = PWarc -> s_kind st = SPlain ->
  exists st', iter_loop fuel body s st = (Ret tt, fold_left step (map fst a) s, st').
Proof.
  induction a as [|[g sep] a IH]; intros fuel s st start Hv Hok Hf Hat Hp Hk.
  - destruct fuel as [|fuel]; [simpl in Hf; lia|]. cbn [iter_loop map fold_left].
    destruct (read_last_g st start false Hat Hp Hk) as (st1 & E). rewrite E. eauto.
  - destruct fuel as [|fuel]; [simpl in Hf; lia|]. cbn [iter_loop map fold_left fst].
    inversion Hok as [|? ? [Hg Hsep] Hok']; subst. cbn [fst snd] in Hg, Hsep.
    destruct (read_first_g st start g sep a false Hat Hp Hk Hg) as (st1 & E & Hi & Hk1 & Hp1 & Hpos1).
    rewrite E. destruct (Hv s st1 g sep _ (or_introl eq_refl) Hi) as (st2 & E2 & Hu). rewrite E2.
    destruct (used_payload _ _ _ _ Hi Hu) as (l & _ & Hp2 & Hk2 & _).
    apply (IH fuel _ st2 (start + length (g_text g) + length sep)); try assumption.
    + intros s0 st0 w0 sep0 aft0 Hin. apply (Hv s0 st0 w0 sep0 aft0). right. exact Hin.
    + simpl in Hf; lia.
    + apply (at_text_next st1 (g_body g) st2 sep); try assumption. lia.
    + congruence.
    + congruence.
Qed.
Lemma gfor_records_archive {S} (body : S -> stream -> record -> outcome unit * S * stream) step a s st start :
  giterates body step a -> garchive_ok a ->
  at_text st start (garchive_text a) -> s_parser st = PWarc -> s_kind st = SPlain ->
  exists st', for_records body s st = (Ret tt, fold_left step (map fst a) s, st').
Proof.
  intros Hv Hok Hat Hp Hk. apply (giter_loop_archive body step a _ s st start); try assumption.
  destruct (at_text_fresh _ _ _ Hat) as (st0 & _ & _ & Hr & _ & _ & _ & Hf0).
  rewrite <- Hf0. pose proof (rest_fuel st0) as H. rewrite Hr in H. pose proof (garchive_text_records a Hok). lia.
Qed.

(** ** Folding output *)
Lemma fold_app {A} (f : A -> bytes) l : forall acc, fold_left (fun acc x => acc ++ f x) l acc = acc ++ concat (map f l).
Proof.
  induction l as [|x l IH]; intro acc; cbn [fold_left map concat]; [rewrite app_nil_r; reflexivity|].
  rewrite IH, <- app_assoc. reflexivity.
Qed.
(** the same use of every file *)
Lemma over_files_all {T} gunzip (use : bytes -> bytes -> stream -> outcome unit * bytes) (ok : input -> T -> Prop) (f : input -> T -> bytes) :
  (forall i a out, ok i a -> exists st, open_input gunzip i = Ret st /\ use out (in_name i) st = (Ret tt, out ++ f i a)) ->
  forall files l, Forall2 ok files l -> forall out,
  over_files gunzip use files out = (Ret tt, out ++ concat (map (fun p => f (fst p) (snd p)) (combine files l))).
Proof.
  intros H files l Hf. induction Hf as [|i a files l Hi _ IH]; intro out; cbn [over_files combine map concat].
  - rewrite app_nil_r. reflexivity.
  - destruct (H i a out Hi) as (st & Eo & Eu). rewrite Eo, Eu, IH, <- app_assoc. reflexivity.
Qed.
Lemma over_files_app {S} gunzip (use : S -> bytes -> stream -> outcome unit * S) files more s s' :
  over_files gunzip use files s = (Ret tt, s') -> over_files gunzip use (files ++ more) s = over_files gunzip use more s'.
Proof.
  revert s. induction files as [|i files IH]; intros s H; cbn [over_files app] in *; [congruence|].
  destruct (open_input gunzip i) as [st| |]; try discriminate. destruct (use s (in_name i) st) as [[u|e|] s1]; try discriminate. apply IH, H.
Qed.
