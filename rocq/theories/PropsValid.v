(** C48: warcvalid. *)
From Verif Require Export PropsFilter PropsCut.
From Coq Require Import String List Lia ZArith.
Open Scope list_scope.

(** ** Specification *)
(** an item of read_records that carries no error *)
Definition clean_item (it : item) : Prop :=
  match it with (_, r, errs) => errs = [] /\ (forall x, r = Some x -> r_errors x = []) end.
(** a file that can be opened and read to its end without an exception, and all of whose
    items carry no error *)
Definition clean_file (gunzip : bytes -> bytes) (i : input) : Prop :=
  exists st items st', open_input gunzip i = Ret st /\ list_records st None true = (Ret tt, items, st') /\ Forall clean_item items.

Lemma valid_clean c st it : clean_item it -> valid_body c st it = (Ret true, c, st).
Proof. destruct it as [[off [r|]] errs]; intros [-> H]; cbn [valid_body]; [|reflexivity]. rewrite (H r eq_refl). reflexivity. Qed.
Lemma valid_unclean c st it : clean_item it \/ exists o, valid_body c st it = (o, false, st) /\ o <> Ret true.
Proof.
  destruct it as [[off r] errs]. unfold clean_item, valid_body, complain. destruct errs as [|e errs].
  - destruct r as [r|]; [|left; split; [reflexivity|discriminate]].
    destruct (r_errors r) eqn:E; [left; split; [reflexivity|intros x H; injection H as <-; exact E]|].
    right. destruct off; eexists; split; try reflexivity; discriminate.
  - right. destruct r, off; eexists; split; try reflexivity; discriminate.
Qed.
Lemma valid_loop fuel : forall c st acc,
  (exists items st', read_loop fuel None true collect acc st = (Ret tt, acc ++ items, st') /\ Forall clean_item items /\
     read_loop fuel None true valid_body c st = (Ret tt, c, st')) \/
  (exists o st', read_loop fuel None true valid_body c st = (o, false, st')) \/
  (exists o items st', o <> Ret tt /\ read_loop fuel None true valid_body c st = (o, c, st') /\ read_loop fuel None true collect acc st = (o, acc ++ items, st')).
Proof.
  induction fuel as [|fuel IH]; intros c st acc; cbn [read_loop].
  - right; right. exists Diverge, [], st. split; [discriminate|]. rewrite app_nil_r. auto.
  - destruct (read_record st true) as [[it|e|] st1].
    + destruct (valid_unclean c st1 it) as [H|(o & E & Ho)].
      * rewrite (valid_clean _ _ _ H). unfold collect at 1 3. destruct (snd (fst it)) eqn:Er.
        -- destruct (IH c st1 (acc ++ [it])) as [(items & st' & E1 & Hc & E2)|[(o & st' & E)|(o & items & st' & Ho & E1 & E2)]].
           ++ left. exists (it :: items), st'. rewrite E1, E2, <- app_assoc. split; [reflexivity|]. split; [constructor; assumption|reflexivity].
           ++ right; left. eauto.
           ++ right; right. exists o, (it :: items), st'. rewrite E1, E2, <- app_assoc. auto.
        -- left. exists [it], st1. split; [reflexivity|]. split; [constructor; [exact H|constructor]|reflexivity].
      * right; left. rewrite E. destruct o as [[]| |]; try contradiction; eauto.
    + right; right. exists (Raise e), [], st1. split; [discriminate|]. rewrite app_nil_r. auto.
    + right; right. exists Diverge, [], st1. split; [discriminate|]. rewrite app_nil_r. auto.
Qed.
Lemma collect_grows fuel : forall st acc o items st', read_loop fuel None true collect acc st = (o, items, st') -> exists k, items = acc ++ k.
Proof.
  induction fuel as [|fuel IH]; intros st acc o items st'; cbn [read_loop]; [intro H; injection H as <- <- <-; exists []; rewrite app_nil_r; reflexivity|].
  destruct (read_record st true) as [[it|e|] st1]; try (intro H; injection H as <- <- <-; exists []; rewrite app_nil_r; reflexivity).
  unfold collect at 1. destruct (snd (fst it)); [|intro H; injection H as <- <- <-; eauto].
  intro H. destruct (IH _ _ _ _ _ H) as [k ->]. exists (it :: k). rewrite <- app_assoc. reflexivity.
Qed.
Lemma clean_loop fuel : forall c st acc items st', read_loop fuel None true collect acc st = (Ret tt, acc ++ items, st') -> Forall clean_item items ->
  read_loop fuel None true valid_body c st = (Ret tt, c, st').
Proof.
  induction fuel as [|fuel IH]; intros c st acc items st'; cbn [read_loop]; [discriminate|].
  destruct (read_record st true) as [[it|e|] st1]; try discriminate. unfold collect at 1. destruct (snd (fst it)) eqn:Er.
  - intros H Hc. destruct (collect_grows _ _ _ _ _ _ H) as [k X]. rewrite <- app_assoc in X. apply app_inv_head in X. cbn [app] in X. subst items.
    inversion Hc as [|? ? H1 H2]; subst. rewrite (valid_clean _ _ _ H1). apply (IH c st1 (acc ++ [it]) k st'); [rewrite H, <- app_assoc; reflexivity|exact H2].
  - intros H Hc. injection H as H <-. apply app_inv_head in H. subst items. inversion Hc as [|? ? H1 H2]; subst.
    rewrite (valid_clean _ _ _ H1). reflexivity.
Qed.
Lemma valid_file_clean gunzip i st c : clean_file gunzip i -> open_input gunzip i = Ret st -> valid_file c (in_name i) st = (Ret tt, c).
Proof.
  intros (st0 & items & st1 & Ho & El & Hc) Ho'. assert (st0 = st) by congruence. subst st0. unfold valid_file, for_read_records.
  rewrite (clean_loop _ c st [] items st1 El Hc). reflexivity.
Qed.
Lemma valid_file_accepts gunzip i st c : open_input gunzip i = Ret st -> valid_file c (in_name i) st = (Ret tt, true) -> c = true /\ clean_file gunzip i.
Proof.
  intros Ho. unfold valid_file, for_read_records. destruct (valid_loop (file_fuel (s_fh st)) c st []) as [(items & st' & E1 & Hc & E2)|[(o & st' & E)|(o & items & st' & Hn & E1 & E2)]].
  - rewrite E2. intro H. injection H as ->. split; [reflexivity|]. exists st, items, st'. auto.
  - rewrite E. discriminate.
  - rewrite E1. intro H. injection H as -> ->. contradiction.
Qed.
Lemma valid_flag gunzip i st c o : open_input gunzip i = Ret st -> valid_file c (in_name i) st = (o, true) -> c = true.
Proof.
  intros Ho. unfold valid_file, for_read_records. destruct (valid_loop (file_fuel (s_fh st)) c st []) as [(items & st' & E1 & Hc & E2)|[(o' & st' & E)|(o' & items & st' & Hn & E1 & E2)]].
  - rewrite E2. congruence.
  - rewrite E. discriminate.
  - rewrite E1. congruence.
Qed.
Lemma over_valid gunzip files : forall c, over_files gunzip valid_file files c = (Ret tt, true) <-> c = true /\ Forall (clean_file gunzip) files.
Proof.
  induction files as [|i files IH]; intro c; cbn [over_files].
  - split; [intro H; split; [congruence|constructor]|intros [-> _]; reflexivity].
  - split.
    + destruct (open_input gunzip i) as [st| |] eqn:Eo; try discriminate. destruct (valid_file c (in_name i) st) as [[[]|e|] c'] eqn:Ev; try discriminate.
      intro H. apply IH in H as [-> H]. destruct (valid_file_accepts _ _ _ _ Eo Ev) as [-> Hi]. split; [reflexivity|constructor; assumption].
    + intros [-> H]. inversion H as [|? ? Hi Hf]; subst. pose proof Hi as (st & ? & ? & Eo & _). rewrite Eo, (valid_file_clean _ _ _ _ Hi Eo). apply IH. auto.
Qed.

(** ** C48 *)
Theorem C48_zero_iff_clean : forall gunzip (files : list input),
  warcvalid gunzip files = Ret 0%Z <-> Forall (clean_file gunzip) files.
Proof.
  intros gunzip files. pose proof (over_valid gunzip files true) as H. unfold warcvalid.
  destruct (over_files gunzip valid_file files true) as [[[]|e|] [|]]; (split; [intro X; try discriminate; apply H; reflexivity|intro X; destruct H as [_ H]; specialize (H (conj eq_refl X)); congruence]).
Qed.
(** otherwise, if it comes back at all, the status is -1 *)
Theorem C48_else_minus_one : forall gunzip (files : list input) (z : Z), warcvalid gunzip files = Ret z ->
  z = 0%Z /\ Forall (clean_file gunzip) files \/ z = (-1)%Z /\ ~ Forall (clean_file gunzip) files.
Proof.
  intros gunzip files z H. assert (Hz : z = 0%Z \/ z = (-1)%Z).
  { unfold warcvalid in H. destruct (over_files gunzip valid_file files true) as [[[]|e|] [|]]; inversion H; auto. }
  destruct Hz as [->| ->]; [left; split; [reflexivity|apply C48_zero_iff_clean, H]|right; split; [reflexivity|]].
  intro X. apply C48_zero_iff_clean in X. rewrite X in H. discriminate.
Qed.
(** intact archives are accepted *)
Lemma collect_visits a : visits collect (fun acc off w => acc ++ [(off, Some (handed w), [])]) (fun acc off => acc ++ [(off, None, [])]) a.
Proof. split; [intros s st w sep after off _ Hi; eexists; split; [reflexivity|eapply used_refl; exact Hi]|intros s st off; eexists; reflexivity]. Qed.
Lemma visit_collect show a : forall start acc, Forall clean_item acc ->
  Forall clean_item (visit (fun acc off w => acc ++ [(off, Some (handed w), [])]) (fun acc off => acc ++ [(off, None, [])]) show None start a acc).
Proof.
  induction a as [|[w sep] a IH]; intros start acc H; cbn [visit next_limit].
  - apply Forall_app. split; [exact H|]. constructor; [split; [reflexivity|discriminate]|constructor].
  - apply IH. apply Forall_app. split; [exact H|]. constructor; [split; [reflexivity|intros x Hx; injection Hx as <-; reflexivity]|constructor].
Qed.
Lemma holds_clean gunzip i a : holds_archive gunzip i a -> clean_file gunzip i.
Proof.
  intros [Hok Hi]. destruct (open_holds _ _ _ Hi) as (st & Eo & Hat & Hp & Hk).
  destruct (for_read_records_archive collect _ _ a None true [] st 0 (collect_visits a) Hok Hat Hp Hk) as [st' E].
  eexists st, _, st'. split; [exact Eo|]. split; [exact E|]. apply visit_collect. constructor.
Qed.
Theorem C48_intact_archives_accepted : forall gunzip (files : list input) (l : list archive),
  Forall2 (holds_archive gunzip) files l -> warcvalid gunzip files = Ret 0%Z.
Proof. intros gunzip files l H. apply C48_zero_iff_clean. induction H; constructor; [eapply holds_clean; eassumption|assumption]. Qed.
(** in particular everything the library writes *)
Theorem C48_library_output_accepted : forall gunzip (l : list source) (st0 : stream) (name text : bytes),
  Forall source_ok l -> write_all None (map source_record l) st0 = (Ret tt, text) -> (forall t, name <> t ++ B ".gz") ->
  warcvalid gunzip [mkin name text] = Ret 0%Z.
Proof.
  intros gunzip l st0 name text Hl Hw Hn.
  assert (Et : text = archive_text (written l)).
  { rewrite write_all_text in Hw. injection Hw as <-. symmetry. apply written_text. }
  assert (Hok : archive_ok (written l)) by (apply written_ok; exact Hl).
  apply (C48_intact_archives_accepted gunzip _ [written l]). constructor; [|constructor]. split; [exact Hok|]. left. split; [exact Hn|]. split; [|exact Et].
  cbn [in_data]. rewrite Et. intro t. apply not_magic. exact Hok.
Qed.
(** an archive whose last payload is cut short is rejected *)
Lemma short_loop w have a : forall fuel c st start,
  archive_ok a -> wrec_ok w -> have < List.length (w_body w) ->
  at_text st start (cut_text a w have) -> s_parser st = PWarc -> s_kind st <> SGzipFile -> S (length a) < fuel ->
  exists st', read_loop fuel None true valid_body c st = (Raise E_short, c, st').
Proof.
  induction a as [|[w0 sep] a IH]; intros fuel c st start Hok Hw Hlt Hat Hp Hk Hf; (destruct fuel as [|fuel]; [simpl in Hf; lia|]); cbn [read_loop].
  - destruct (cut_header st start w _ true Hat Hp Hk Hw) as (st1 & E & He & Hr). rewrite E. rewrite valid_clean by (split; [reflexivity|intros x H; injection H as <-; reflexivity]).
    cbn [snd fst]. destruct fuel as [|fuel]; [simpl in Hf; lia|]. cbn [read_loop].
    destruct (read_record_short st1 true _ He) as (st2 & E2); [rewrite Hr, firstn_length; lia|]. rewrite E2. eauto.
  - inversion Hok as [|? ? [Hw0 Hsep] Hok']; subst. cbn [fst snd] in Hw0, Hsep.
    assert (Hat' : at_text st start (head_text (w_version w0) (w_headers w0) ++ (w_body w0 ++ sep ++ cut_text a w have))).
    { unfold cut_text in Hat |- *. rewrite archive_text_cons in Hat. unfold wrec_text in Hat. rewrite <- !app_assoc in Hat. exact Hat. }
    destruct (at_text_fresh _ _ _ Hat') as (st0 & Heq & He & Hr & Hpos & Hk0 & Hp0 & Hf0). rewrite Heq.
    destruct (read_wrec st0 true w0 (sep ++ cut_text a w have) He) as [E Hi]; [congruence|rewrite Hk0; exact Hk|exact Hw0|rewrite Hr; unfold wrec_text; rewrite <- !app_assoc; reflexivity|].
    rewrite E. rewrite valid_clean by (split; [reflexivity|intros x H; injection H as <-; reflexivity]). cbn [snd fst].
    apply (IH fuel c _ (start + List.length (wrec_text w0) + List.length sep)); try assumption.
    + apply (at_text_next _ (w_body w0) _ sep _ _ Hi); try assumption; [eapply used_refl; exact Hi|].
      change (pos (moved st0 ?n ?e)) with (pos (adv st0 n)). rewrite pos_adv. unfold wrec_text. rewrite app_length. lia.
    + cbn. congruence.
    + cbn. congruence.
    + simpl in Hf. lia.
Qed.
Theorem C48_truncated_payload_rejected : forall gunzip (files others : list input) (i : input) (a : archive) (w : wrec) (have : nat),
  Forall (clean_file gunzip) files -> archive_ok a -> wrec_ok w -> have < List.length (w_body w) ->
  file_holds gunzip i (cut_text a w have) ->
  warcvalid gunzip (files ++ i :: others) = Ret (-1)%Z.
Proof.
  intros gunzip files others i a w have Hf Hok Hw Hlt Hi. unfold warcvalid.
  rewrite (over_files_app gunzip valid_file files (i :: others) true true) by (apply over_valid; auto). cbn [over_files].
  destruct (open_holds _ _ _ Hi) as (st & Eo & Hat & Hp & Hk). rewrite Eo. unfold valid_file, for_read_records.
  destruct (short_loop w have a (file_fuel (s_fh st)) true st 0 Hok Hw Hlt Hat Hp Hk) as [st' E].
  - destruct (at_text_fresh _ _ _ Hat) as (st0 & _ & _ & Hr & _ & _ & _ & Hf0). rewrite <- Hf0. pose proof (rest_fuel st0) as H. rewrite Hr in H.
    unfold cut_text in H. rewrite !app_length in H. pose proof (archive_text_records a).
    assert (0 < List.length (head_text (w_version w) (w_headers w))) by (unfold head_text; rewrite !app_length; cbn; lia). lia.
  - rewrite E. reflexivity.
Qed.
(** any accepted layout: the status tells whether some record was laid out with an error *)
Theorem C48_layout_errors : forall gunzip (i : input) (a : garchive),
  garchive_ok a -> plain_file i (garchive_text a) ->
  warcvalid gunzip [i] = Ret (if forallb (fun g => match g_errors (fst g) with [] => true | _ => false end) a then 0 else -1)%Z.
Proof.
  intros gunzip i a Hok Hi. unfold warcvalid. cbn [over_files]. rewrite (open_plain gunzip i _ Hi). unfold valid_file, for_read_records.
  match goal with |- context [read_loop _ _ _ _ _ ?s] => set (st := s) end.
  assert (G : forall a fuel st start, garchive_ok a -> at_text st start (garchive_text a) -> s_parser st = PWarc -> s_kind st = SPlain -> length a < fuel ->
    exists st', read_loop fuel None true valid_body true st = (Ret tt, forallb (fun g => match g_errors (fst g) with [] => true | _ => false end) a, st')).
  { clear. induction a as [|[g sep] a IH]; intros fuel st start Hok Hat Hp Hk Hf; (destruct fuel as [|fuel]; [simpl in Hf; lia|]); cbn [read_loop forallb fst].
    - destruct (read_last_g st start true Hat Hp Hk) as (st1 & E). rewrite E. cbn [valid_body snd fst]. eauto.
    - inversion Hok as [|? ? [Hg Hsep] Hok']; subst. cbn [fst snd] in Hg, Hsep.
      destruct (read_first_g st start g sep a true Hat Hp Hk Hg) as (st1 & E & Hin & Hk1 & Hp1 & Hpos1). rewrite E. cbn [valid_body g_handed parsed_rec r_errors].
      destruct (g_errors g) as [|e errs]; cbn [andb complain]; [|eauto]. cbn [snd fst].
      apply (IH fuel st1 (start + length (g_text g) + length sep)); try assumption; [|simpl in Hf; lia].
      apply (at_text_next st1 (g_body g) st1 sep _ _ Hin); [eapply used_refl; exact Hin|exact Hsep|lia]. }
  destruct (G a (file_fuel (s_fh st)) st 0 Hok) as [st' E]; [left; split; [reflexivity|]; exists []; split; [reflexivity|]; split; [split; [intros c []|left; reflexivity]|reflexivity]|reflexivity|reflexivity| |].
  - pose proof (rest_fuel st) as H. change (rest st) with (garchive_text a) in H. pose proof (garchive_text_records a Hok). lia.
  - rewrite E. destruct (forallb _ a); reflexivity.
Qed.
(** but a file that ends between two header lines is accepted *)
Theorem C48_cut_between_headers_accepted : forall gunzip (i : input) (w : wrec) (hs1 : list header) (h : header) (hs2 : list header),
  wrec_ok w -> Forall single_line_header (w_headers w) -> Forall length_natural (w_headers w) ->
  w_headers w = hs1 ++ h :: hs2 -> Forall (fun x => ~ same_name (fst x) (B "Content-Length")) hs1 ->
  plain_file i (firstn (header_position w hs1) (wrec_text w ++ terminator)) ->
  warcvalid gunzip [i] = Ret 0%Z.
Proof.
  intros gunzip i w hs1 h hs2 Hw Hs Hn E Hno Hi. apply C48_zero_iff_clean. constructor; [|constructor].
  pose proof (open_plain gunzip i _ Hi) as Eo. set (st := new_stream SPlain _ PWarc) in Eo.
  destruct (C08_cut_between_headers_is_silent w hs1 h hs2 st Hw Hs Hn E Hno (ex_intro _ true eq_refl)) as (st1 & E1 & _ & off & E2).
  exists st. unfold list_records, for_read_records.
  assert (Hfu : exists n, file_fuel (s_fh st) = S (S n)).
  { pose proof (rest_fuel st) as H. change (rest st) with (firstn (header_position w hs1) (wrec_text w ++ terminator)) in H.
    rewrite firstn_length in H. destruct Hi as (_ & Hd & _). destruct (file_fuel (s_fh st)) as [|[|n]]; [lia| |eauto].
    exfalso. assert (X : 0 < header_position w hs1) by (unfold header_position; rewrite !app_length; cbn; lia).
    assert (Y : 0 < List.length (wrec_text w ++ terminator)) by (rewrite app_length; cbn; lia). lia. }
  destruct Hfu as [n ->]. cbn [read_loop]. rewrite E1. cbn [collect snd fst app].
  destruct (read_record st1 true) as [o st2]. cbn [fst] in E2. subst o. cbn [collect snd fst app].
  do 2 eexists. split; [exact Eo|]. split; [reflexivity|].
  constructor; [split; [reflexivity|intros x Hx; injection Hx as <-; reflexivity]|]. constructor; [split; [reflexivity|discriminate]|constructor].
Qed.
