(** Reading whole WARC archives: for every loop body that stays inside the
    current record's payload, read_records and iteration visit exactly the
    records of the archive. *)
From Verif Require Export WarcRead.
From Coq Require Import String List.
Open Scope list_scope.

(** the record object the reader hands out for [w] *)
Definition handed (w : wrec) : record := parsed_rec (w_version w) (w_headers w) [].

(** [st'] is [st] after consuming the first [k] bytes of the [n] bytes left *)
Definition used (st : stream) (n : nat) (st' : stream) : Prop :=
  exists k, k <= n /\ st' = moved st k (Z.of_nat (n - k)).
Lemma used_payload st left after st' : in_payload st left after -> used st (length left) st' ->
  exists left', in_payload st' left' after /\ s_parser st' = s_parser st /\ s_kind st' = s_kind st /\
                length left' <= length left /\ pos st' + length left' = pos st + length left /\
                file_fuel (s_fh st') = file_fuel (s_fh st).
Proof.
  intros [He Hr] (k & Hk & ->). exists (skipn k left). split; [split|].
  - cbn [moved set_eoc s_eoc]. rewrite skipn_length. reflexivity.
  - change (rest (moved st k ?e)) with (rest (adv st k)). rewrite rest_adv, Hr, skipn_app.
    replace (k - length left) with 0 by lia. reflexivity.
  - split; [reflexivity|]. split; [reflexivity|]. rewrite skipn_length. split; [lia|].
    change (pos (moved st k ?e)) with (pos (adv st k)). rewrite pos_adv. split; [lia|].
    change (s_fh (moved st k ?e)) with (s_fh (adv st k)). apply fuel_adv.
Qed.
Lemma used_refl st left after : in_payload st left after -> used st (length left) st.
Proof. intros [He _]. exists 0. split; [lia|]. unfold moved. rewrite adv_0, Nat.sub_0_r, <- He. symmetry. apply set_eoc_eta. Qed.
Lemma used_cops st left after ops : in_payload st left after -> Forall cop_nonneg ops ->
  used st (length left) (snd (run_cops st ops)).
Proof.
  intros Hi Ho. destruct (run_cops_ok ops st left after Hi Ho) as (l & E & _ & Hl & _). rewrite E. cbn [snd].
  assert (length l <= length left) by (rewrite Hl, app_length; lia).
  exists (length left - length l). split; [lia|]. f_equal. lia.
Qed.

(** ** content of a record *)
Lemma read_rest st left after : in_payload st left after ->
  stream_read st None = (Ret left, moved st (length left) 0).
Proof.
  intro Hi. pose proof (run_cop_ok st left after (OpRead None) Hi I) as H. cbn [run_cop cop_result] in H.
  rewrite H. rewrite Z.sub_diag. reflexivity.
Qed.
Lemma rec_content_payload r st left after : r_content r = None -> r_cf r = CF_stream -> in_payload st left after ->
  rec_content r st = (Ret (get_header r (ct_name r), Some left),
     with_cf (with_content r (get_header r (ct_name r), Some left)) CF_none, moved st (length left) 0).
Proof. intros H1 H2 Hi. unfold rec_content. rewrite H1, H2, (read_rest _ _ _ Hi). reflexivity. Qed.
Lemma lookup_first name hs : lookup_header name hs = first_header name hs.
Proof.
  induction hs as [|[n v] t IH]; [reflexivity|]. cbn [lookup_header first_header]. unfold same_nameb.
  assert (E : bytes_eqb (lower name) (lower n) = bytes_eqb (lower n) (lower name)).
  { destruct (bytes_eqb (lower n) (lower name)) eqn:E; [apply bytes_eqb_eq in E; apply bytes_eqb_eq; congruence|].
    apply bytes_eqb_neq. apply bytes_eqb_neq in E. congruence. }
  rewrite E, IH. reflexivity.
Qed.
Lemma used_all st (left : bytes) : used st (length left) (moved st (length left) 0).
Proof. exists (length left). split; [lia|]. rewrite Nat.sub_diag. reflexivity. Qed.

(** ** the loop *)
(** [body] visits a record without leaving its payload and updates its state as
    [step] says, and handles the end as [fin] says *)
Definition visits {S} (body : S -> stream -> item -> outcome bool * S * stream)
    (step : S -> option nat -> wrec -> S) (fin : S -> option nat -> S) (a : archive) : Prop :=
  (forall s st w sep after off, In (w, sep) a -> in_payload st (w_body w) after ->
     exists st', body s st (off, Some (handed w), []) = (Ret true, step s off w, st') /\
                 used st (length (w_body w)) st') /\
  (forall s st off, exists st', body s st (off, None, []) = (Ret true, fin s off, st')).

Definition next_limit (limit : option nat) : option nat :=
  match limit with Some (Datatypes.S n) => Some n | _ => limit end.
Fixpoint visit {S} (step : S -> option nat -> wrec -> S) (fin : S -> option nat -> S)
    (show : nat -> option nat) (limit : option nat) (start : nat) (a : archive) (s : S) : S :=
  match limit with
  | Some O => s
  | _ => match a with
         | [] => fin s (show start)
         | (w, sep) :: t =>
             visit step fin show (next_limit limit) (start + List.length (wrec_text w) + List.length sep) t
                   (step s (show start) w)
         end
  end.

(** the reader is at the start of the text [x], possibly still with the end of
    the previous record (unread payload and a separator) before it *)
Definition at_text (st : stream) (start : nat) (x : bytes) : Prop :=
  (s_eoc st = None /\ exists sep, rest st = sep ++ x /\ sep_ok sep /\ pos st + length sep = start) \/
  (exists left sep, in_payload st left (sep ++ x) /\ sep_ok sep /\ pos st + length left + length sep = start).
Lemma at_text_fresh st start x : at_text st start x ->
  exists st1, (forall b, read_record st b = read_record st1 b) /\ s_eoc st1 = None /\ rest st1 = x /\ pos st1 = start /\
     s_kind st1 = s_kind st /\ s_parser st1 = s_parser st /\ file_fuel (s_fh st1) = file_fuel (s_fh st).
Proof.
  intros [(He & sep & Hr & Hs & Hp)|(left & sep & Hi & Hs & Hp)].
  - exists (adv st (length sep)). split; [intro b; apply (read_record_sep _ _ _ x); assumption|].
    split; [exact He|]. split; [apply rest_adv_app; exact Hr|]. split; [rewrite pos_adv; exact Hp|].
    split; [reflexivity|]. split; [reflexivity|apply fuel_adv].
  - exists (fresh (adv st (length left + length sep))). split; [intro b; apply (read_after _ _ _ _ x); assumption|].
    split; [reflexivity|]. split.
    + change (rest (fresh ?q)) with (rest q). rewrite <- app_length. apply rest_adv_app.
      rewrite <- app_assoc. apply Hi.
    + change (pos (fresh ?q)) with (pos q). rewrite pos_adv. split; [lia|]. split; [reflexivity|]. split; [reflexivity|].
      apply fuel_adv.
Qed.

Lemma archive_text_cons w sep a : archive_text ((w, sep) :: a) = wrec_text w ++ sep ++ archive_text a.
Proof. unfold archive_text. cbn [map concat fst snd]. rewrite <- app_assoc. reflexivity. Qed.

(** one step *)
Lemma read_first st start w sep a b :
  at_text st start (archive_text ((w, sep) :: a)) -> s_parser st = PWarc -> s_kind st <> SGzipFile ->
  wrec_ok w -> exists st1,
  read_record st b = (Ret (item_offset (s_kind st) b start, Some (handed w), []), st1) /\
  in_payload st1 (w_body w) (sep ++ archive_text a) /\
  s_kind st1 = s_kind st /\ s_parser st1 = PWarc /\ file_fuel (s_fh st1) = file_fuel (s_fh st) /\
  pos st1 + length (w_body w) = start + length (wrec_text w).
Proof.
  intros Hat Hp Hk Hw. destruct (at_text_fresh _ _ _ Hat) as (st0 & Heq & He & Hr & Hpos & Hk0 & Hp0 & Hf0).
  rewrite Heq. rewrite archive_text_cons in Hr. rewrite Hp in Hp0. rewrite <- Hk0 in Hk.
  destruct (read_wrec st0 b w _ He Hp0 Hk Hw Hr) as [E Hi]. rewrite E, Hk0, Hpos.
  eexists. split; [reflexivity|]. split; [exact Hi|]. split; [exact Hk0|]. split; [exact Hp0|]. split.
  - change (s_fh (moved st0 ?n ?e)) with (s_fh (adv st0 n)). rewrite fuel_adv. exact Hf0.
  - change (pos (moved st0 ?n ?e)) with (pos (adv st0 n)). rewrite pos_adv, Hpos. unfold wrec_text. rewrite app_length. lia.
Qed.
Lemma read_last st start b : at_text st start [] -> s_parser st = PWarc -> s_kind st <> SGzipFile -> exists st1,
  read_record st b = (Ret (item_offset (s_kind st) b start, None, []), st1).
Proof.
  intros Hat Hp Hk. destruct (at_text_fresh _ _ _ Hat) as (st0 & Heq & He & Hr & Hpos & Hk0 & Hp0 & Hf0).
  rewrite Heq. rewrite (read_end st0 b He); [|congruence|congruence|exact Hr]. rewrite Hk0, Hpos. eauto.
Qed.
Lemma at_text_next st left st' sep x start : in_payload st left (sep ++ x) -> used st (length left) st' -> sep_ok sep ->
  pos st + length left + length sep = start -> at_text st' start x.
Proof.
  intros Hi Hu Hs Hp. destruct (used_payload _ _ _ _ Hi Hu) as (l & Hi' & _ & _ & _ & Hp' & _).
  right. exists l, sep. split; [exact Hi'|]. split; [exact Hs|]. lia.
Qed.
Lemma wrec_text_nonempty w : 0 < length (wrec_text w).
Proof. unfold wrec_text, head_text. rewrite !app_length. unfold CRLF. simpl. lia. Qed.
Lemma archive_text_records a : length a <= length (archive_text a).
Proof. induction a as [|[w s] a IH]; [simpl; lia|]. rewrite archive_text_cons, !app_length. pose proof (wrec_text_nonempty w). simpl. lia. Qed.

Lemma read_loop_archive {S} (body : S -> stream -> item -> outcome bool * S * stream) step fin a :
  forall fuel limit b s st start,
  visits body step fin a -> archive_ok a -> length a < fuel ->
  at_text st start (archive_text a) -> s_parser st = PWarc -> s_kind st <> SGzipFile ->
  exists st', read_loop fuel limit b body s st =
    (Ret tt, visit step fin (item_offset (s_kind st) b) limit start a s, st').
Proof.
  induction a as [|[w sep] a IH]; intros fuel limit b s st start Hv Hok Hf Hat Hp Hk.
  - destruct fuel as [|fuel]; [simpl in Hf; lia|]. cbn [read_loop visit].
    destruct (read_last st start b Hat Hp Hk) as (st1 & E). rewrite E.
    destruct Hv as [_ Hfin]. destruct (Hfin s st1 (item_offset (s_kind st) b start)) as [st2 E2].
    rewrite E2. cbn [snd fst].
    destruct limit as [[|n]|]; eauto.
  - destruct fuel as [|fuel]; [simpl in Hf; lia|]. cbn [read_loop visit].
    inversion Hok as [|? ? [Hw Hsep] Hok']; subst. cbn [fst snd] in Hw, Hsep.
    destruct (read_first st start w sep a b Hat Hp Hk Hw) as (st1 & E & Hi & Hk1 & Hp1 & Hf1 & Hpos1).
    rewrite E. pose proof Hv as [Hstep Hfin].
    destruct (Hstep s st1 w sep _ (item_offset (s_kind st) b start) (or_introl eq_refl) Hi) as (st2 & E2 & Hu).
    rewrite E2. cbn [snd fst].
    destruct (used_payload _ _ _ _ Hi Hu) as (l & _ & Hp2 & Hk2 & _).
    assert (Hv' : visits body step fin a).
    { split; [|exact Hfin]. intros; apply (Hstep _ _ _ sep0 after); [right; assumption|assumption]. }
    assert (Hat2 : at_text st2 (start + length (wrec_text w) + length sep) (archive_text a)).
    { apply (at_text_next st1 (w_body w) st2 sep); try assumption. lia. }
    destruct (IH fuel (next_limit limit) b (step s (item_offset (s_kind st) b start) w) st2 _ Hv' Hok'
                ltac:(simpl in Hf; lia) Hat2) as [st' E']; [congruence|congruence|].
    rewrite Hk2, Hk1 in E'. change (match limit with Some (Datatypes.S n) => Some n | _ => limit end) with (next_limit limit).
    rewrite E'. destruct limit as [[|n]|]; eauto.
Qed.

Theorem for_read_records_archive {S} (body : S -> stream -> item -> outcome bool * S * stream) step fin a limit b s st start :
  visits body step fin a -> archive_ok a ->
  at_text st start (archive_text a) -> s_parser st = PWarc -> s_kind st <> SGzipFile ->
  exists st', for_read_records limit b body s st =
    (Ret tt, visit step fin (item_offset (s_kind st) b) limit start a s, st').
Proof.
  intros Hv Hok Hat Hp Hk. apply read_loop_archive; try assumption.
  destruct (at_text_fresh _ _ _ Hat) as (st0 & _ & _ & Hr & _ & _ & _ & Hf0).
  rewrite <- Hf0. pose proof (rest_fuel st0) as H. rewrite Hr in H. pose proof (archive_text_records a). lia.
Qed.

(** iteration: [body] may also raise nothing *)
Definition iterates {S} (body : S -> stream -> record -> outcome unit * S * stream)
    (step : S -> wrec -> S) (a : archive) : Prop :=
  forall s st w sep after, In (w, sep) a -> in_payload st (w_body w) after ->
     exists st', body s st (handed w) = (Ret tt, step s w, st') /\ used st (length (w_body w)) st'.
Lemma iter_loop_archive {S} (body : S -> stream -> record -> outcome unit * S * stream) step a :
  forall fuel s st start,
  iterates body step a -> archive_ok a -> length a < fuel ->
  at_text st start (archive_text a) -> s_parser st = PWarc -> s_kind st <> SGzipFile ->
  exists st', iter_loop fuel body s st = (Ret tt, fold_left step (map fst a) s, st').
Proof.
  induction a as [|[w sep] a IH]; intros fuel s st start Hv Hok Hf Hat Hp Hk.
  - destruct fuel as [|fuel]; [simpl in Hf; lia|]. cbn [iter_loop map fold_left].
    destruct (read_last st start false Hat Hp Hk) as (st1 & E). rewrite E. eauto.
  - destruct fuel as [|fuel]; [simpl in Hf; lia|]. cbn [iter_loop map fold_left fst].
    inversion Hok as [|? ? [Hw Hsep] Hok']; subst. cbn [fst snd] in Hw, Hsep.
    destruct (read_first st start w sep a false Hat Hp Hk Hw) as (st1 & E & Hi & Hk1 & Hp1 & Hf1 & Hpos1).
    rewrite E. destruct (Hv s st1 w sep _ (or_introl eq_refl) Hi) as (st2 & E2 & Hu). rewrite E2.
    destruct (used_payload _ _ _ _ Hi Hu) as (l & _ & Hp2 & Hk2 & _).
    apply (IH fuel _ st2 (start + length (wrec_text w) + length sep)); try assumption.
    + intros s0 st0 w0 sep0 aft0 Hin. apply (Hv s0 st0 w0 sep0 aft0). right. exact Hin.
    + simpl in Hf; lia.
    + apply (at_text_next st1 (w_body w) st2 sep); try assumption. lia.
    + congruence.
    + congruence.
Qed.
Theorem for_records_archive {S} (body : S -> stream -> record -> outcome unit * S * stream) step a s st start :
  iterates body step a -> archive_ok a ->
  at_text st start (archive_text a) -> s_parser st = PWarc -> s_kind st <> SGzipFile ->
  exists st', for_records body s st = (Ret tt, fold_left step (map fst a) s, st').
Proof.
  intros Hv Hok Hat Hp Hk. apply (iter_loop_archive body step a _ s st start); try assumption.
  destruct (at_text_fresh _ _ _ Hat) as (st0 & _ & _ & Hr & _ & _ & _ & Hf0).
  rewrite <- Hf0. pose proof (rest_fuel st0) as H. rewrite Hr in H. pose proof (archive_text_records a). lia.
Qed.

(** ** looking at everything *)
Definition look_step (acc : list seen) (off : option nat) (w : wrec) : list seen := acc ++ [seen_record off w].
Definition look_fin (acc : list seen) (off : option nat) : list seen := acc ++ [SeenEnd off []].
Lemma look_visits a : visits look look_step look_fin a.
Proof.
  split.
  - intros s st w sep after off _ Hi. unfold look.
    rewrite (rec_content_payload (handed w) st (w_body w) after eq_refl eq_refl Hi).
    eexists. split; [|apply used_all]. unfold look_step, seen_record, rec_version, get_header. cbn.
    change CONTENT_TYPE with (B "Content-Type"). rewrite lookup_first. reflexivity.
  - intros s st off. eexists. reflexivity.
Qed.
Fixpoint look_list (show : nat -> option nat) (limit : option nat) (start : nat) (a : archive) : list seen :=
  match limit with
  | Some O => []
  | _ => match a with
         | [] => [SeenEnd (show start) []]
         | (w, sep) :: t => seen_record (show start) w ::
             look_list show (next_limit limit) (start + List.length (wrec_text w) + List.length sep) t
         end
  end.
Lemma visit_look show a : forall limit start acc,
  visit look_step look_fin show limit start a acc = acc ++ look_list show limit start a.
Proof.
  induction a as [|[w sep] a IH]; intros limit start acc; cbn [visit look_list].
  - destruct limit as [[|n]|]; [rewrite app_nil_r; reflexivity|reflexivity|reflexivity].
  - destruct limit as [[|n]|]; [rewrite app_nil_r; reflexivity| |]; rewrite IH; unfold look_step; rewrite <- app_assoc; reflexivity.
Qed.
Lemma look_list_all show a : forall start, look_list show None start a = seen_archive show start a.
Proof. induction a as [|[w sep] a IH]; intro start; [reflexivity|]. cbn [look_list seen_archive next_limit]. rewrite IH. reflexivity. Qed.
Lemma look_list_some show a : forall n start, look_list show (Some n) start a = firstn n (seen_archive show start a).
Proof.
  induction a as [|[w sep] a IH]; intros [|n] start; try reflexivity.
  - cbn. rewrite firstn_nil. reflexivity.
  - cbn [look_list seen_archive next_limit firstn]. rewrite IH. reflexivity.
Qed.
