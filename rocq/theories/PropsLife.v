(** C86: one record object and any history of calls *)
From Verif Require Export LifeSpec WarcArchive WarcWrite.
From Verif Require Import PropsRead PropsRecord.
From Coq Require Import String List Lia ZArith.
Open Scope list_scope.

(** ** The model does what the specification says *)
Definition full (rd : reader) : Prop := Forall (fun p => p <> []) rd.
Lemma rd_read_ok rd n : full rd -> let '(d, rd') := rd_read rd n in
  concat rd = d ++ concat rd' /\ full rd' /\ List.length d <= n /\ (d = [] -> n = 0 \/ concat rd' = []).
Proof.
  intro H. destruct rd as [|p ps]; cbn [rd_read]; [repeat split; auto; apply Nat.le_0_l|]. inversion H as [|? ? H1 H2]; subst. destruct (Nat.leb_spec (List.length p) n) as [L|L].
  - split; [reflexivity|]. split; [exact H2|]. split; [exact L|]. intro X. contradiction.
  - split; [cbn [concat]; rewrite app_assoc, firstn_skipn; reflexivity|]. split.
    + constructor; [|exact H2]. intro X. apply (f_equal (@List.length _)) in X. rewrite skipn_length in X. cbn [List.length] in X. lia.
    + rewrite firstn_length. split; [lia|]. intro X. left. apply (f_equal (@List.length _)) in X. rewrite firstn_length in X. cbn [List.length] in X. lia.
Qed.
Lemma copy_own_all fuel : forall rd st out, full rd -> List.length (concat rd) + List.length rd < fuel ->
  copy_loop fuel (CF_own rd) st out = (Ret tt, CF_own [], st, out ++ concat rd).
Proof.
  induction fuel as [|fuel IH]; intros rd st out Hf Hl; [lia|]. cbn [copy_loop cf_read]. assert (Hn : 0 < Z.to_nat CHUNK_SIZE) by (unfold CHUNK_SIZE; lia). set (n := Z.to_nat CHUNK_SIZE) in *. clearbody n.
  destruct rd as [|p ps]; [cbn; rewrite app_nil_r; reflexivity|]. cbn [rd_read]. inversion Hf as [|? ? H1 H2]; subst. cbn [concat List.length] in Hl. rewrite app_length in Hl. destruct (Nat.leb_spec (List.length p) n) as [L|L].
  - destruct p as [|c p]; [contradiction|]. rewrite IH; [cbn [concat]; rewrite <- app_assoc; reflexivity|exact H2|cbn [List.length] in *; lia].
  - destruct (firstn n p) as [|c q] eqn:E; [apply (f_equal (@List.length _)) in E; rewrite firstn_length in E; cbn [List.length] in E; lia|]. rewrite <- E.
    rewrite IH; [cbn [concat]; rewrite <- app_assoc; do 2 f_equal; rewrite (app_assoc (firstn n p)), firstn_skipn; reflexivity| |].
    + constructor; [|exact H2]. intro X. apply (f_equal (@List.length _)) in X. rewrite skipn_length in X. cbn [List.length] in X. lia.
    + cbn [concat List.length]. rewrite app_length, skipn_length. lia.
Qed.

(** the stream a record was read from: inside the record's payload, [left] still to come,
    and the next record where it was *)
Definition here (after : bytes) (next st : stream) (left : bytes) : Prop :=
  (in_payload st left after \/ (left = [] /\ s_eoc st = None /\ rest st = [])) /\ fresh (adv st (List.length left)) = next.
Lemma here_moved after next st k left : here after next st left -> in_payload st left after -> k <= List.length left ->
  here after next (moved st k (Z.of_nat (List.length left) - Z.of_nat k)) (skipn k left).
Proof.
  intros [_ Hn] [He Hr] Hk. split.
  - left. split; [cbn; rewrite skipn_length; f_equal; lia|]. change (rest (moved st k ?e)) with (rest (adv st k)). rewrite rest_adv, Hr, skipn_app. replace (k - List.length left) with 0 by lia. reflexivity.
  - rewrite <- Hn. unfold fresh, moved, adv, set_fh, set_eoc. cbn. rewrite f_advance_advance, skipn_length. do 2 f_equal. lia.
Qed.
(** at the end of the file, with no record's payload to come *)
Lemma read_nothing st n : s_eoc st = None -> rest st = [] -> nonneg n -> exists st', stream_read st n = (Ret [], st') /\ s_eoc st' = None /\ rest st' = [] /\ st' = adv st 0.
Proof.
  intros He Hr Hn. unfold stream_read, bounded. rewrite He. unfold rest in Hr. destruct n as [n|]; cbn [raw_read].
  - unfold f_read. cbn in Hn. destruct (Z.ltb_spec n 0) as [L|L]; [lia|]. rewrite Hr, firstn_nil. eexists. split; [reflexivity|]. unfold count_down, rest. cbn. rewrite He.
    split; [reflexivity|]. split; [|destruct st as [k f e p]; cbn in *; subst; reflexivity]. unfold f_rest, f_advance in *. cbn. rewrite Nat.add_0_r. exact Hr.
  - unfold f_read_all. rewrite Hr. eexists. split; [reflexivity|]. unfold count_down, rest. cbn. rewrite He.
    split; [reflexivity|]. split; [|destruct st as [k f e p]; cbn in *; subst; reflexivity]. unfold f_rest, f_advance in *. cbn. rewrite Nat.add_0_r. exact Hr.
Qed.
Lemma here_read after next st left n : here after next st left -> nonneg n ->
  exists got left' st', stream_read st n = (Ret got, st') /\ left = got ++ left' /\ got = cop_result (OpRead n) left /\ here after next st' left'.
Proof.
  intros H Hn. pose proof H as [[Hp|(-> & He & Hr)] Hx].
  - pose proof (run_cop_ok st left after (OpRead n) Hp Hn) as E. cbn [run_cop] in E. destruct (cop_result_prefix (OpRead n) left) as [l' El].
    set (d := cop_result (OpRead n) left) in *. assert (Ld : List.length left = List.length d + List.length l') by (rewrite El at 1; apply app_length).
    assert (S : skipn (List.length d) left = l') by (rewrite El at 1; rewrite skipn_app, skipn_all, Nat.sub_diag; reflexivity).
    exists d, l', (moved st (List.length d) (Z.of_nat (List.length left) - Z.of_nat (List.length d))). split; [exact E|]. split; [exact El|]. split; [reflexivity|].
    rewrite <- S. apply here_moved; [exact H|exact Hp|lia].
  - destruct (read_nothing st n He Hr Hn) as (st' & E & A & B & ->). exists [], [], (adv st 0). split; [exact E|]. split; [reflexivity|]. split; [destruct n; cbn; rewrite ?firstn_nil; reflexivity|].
    split; [right; auto|]. rewrite <- Hx. unfold adv, fresh, set_fh, set_eoc. cbn. rewrite f_advance_advance. reflexivity.
Qed.
Lemma here_copy after next st left fuel out : here after next st left -> List.length left < fuel ->
  exists st', copy_loop fuel CF_stream st out = (Ret tt, CF_stream, st', out ++ left) /\ here after next st' [].
Proof.
  intros H Hf. pose proof H as [[Hp|(-> & He & Hr)] Hx].
  - exists (moved st (List.length left) 0). split; [eapply copy_stream; [exact Hp|exact Hf]|].
    pose proof (here_moved after next st (List.length left) left H Hp (Nat.le_refl _)) as K. rewrite Z.sub_diag, skipn_all in K. exact K.
  - destruct fuel as [|fuel]; [cbn in Hf; lia|]. cbn [copy_loop cf_read]. destruct (here_read after next st [] (Some (Z.of_nat (Z.to_nat CHUNK_SIZE))) H (Nat2Z.is_nonneg _)) as (got & left' & st' & E & L & _ & Hh').
    symmetry in L. apply app_eq_nil in L as [-> ->]. rewrite E, app_nil_r. exists st'. auto.
Qed.
Lemma here_fuel after next st left : here after next st left -> List.length left < cf_fuel CF_stream st.
Proof.
  intros [[[_ Hr]|(-> & _ & Hr)] _]; cbn [cf_fuel]; pose proof (rest_fuel st) as Q; [|unfold file_fuel; cbn [List.length]; lia].
  rewrite Hr, app_length in Q. lia.
Qed.
Lemma here_one after next st l1 l2 : here after next st l1 -> here after next st l2 -> l1 = l2.
Proof.
  intros [[[E1 R1]|(-> & E1 & R1)] _] [[[E2 R2]|(-> & E2 & R2)] _]; try congruence. rewrite R1 in R2. exact (app_inv_tail _ _ _ R2).
Qed.
Lemma here_next after next st left b : here after next st left -> read_record st b = read_record next b.
Proof.
  intros [[[H1 H2]|(-> & He & Hr)] <-].
  - rewrite (read_record_skip st b left after H1 H2). reflexivity.
  - cbn [List.length]. f_equal. destruct st as [k f e p]. unfold fresh, adv, set_fh, set_eoc. cbn in *. subst e. f_equal. symmetry. apply f_advance_0.
Qed.

(** *** Any declared length *)
(** a stream of whose last record [left] is still to come: as many bytes as it declares, or
    all that follow in the file when there are fewer; [next]: the stream once they are read *)
Definition there (next st : stream) (left : bytes) : Prop :=
  exists e, s_eoc st = Some e /\ (0 <= e)%Z /\ left = firstn (Z.to_nat e) (rest st) /\ moved st (List.length left) (e - Z.of_nat (List.length left)) = next.
Lemma there_start st e : s_eoc st = Some e -> (0 <= e)%Z ->
  there (moved st (List.length (firstn (Z.to_nat e) (rest st))) (e - Z.of_nat (List.length (firstn (Z.to_nat e) (rest st))))) st (firstn (Z.to_nat e) (rest st)).
Proof. intros He Hn. exists e. auto. Qed.
Lemma there_read next st left n : there next st left -> nonneg n ->
  exists got left' st', stream_read st n = (Ret got, st') /\ left = got ++ left' /\ got = cop_result (OpRead n) left /\ there next st' left'.
Proof.
  intros (e & He & Hn & Hl & Hx) Hnn. assert (Ll : List.length left <= Z.to_nat e) by (rewrite Hl, firstn_length; lia).
  assert (Hm : exists m, bounded st n = Some (Z.of_nat m) /\ m <= Z.to_nat e /\ firstn m (rest st) = cop_result (OpRead n) left).
  { unfold bounded. rewrite He. destruct n as [z|]; cbn [nonneg] in Hnn.
    - exists (Nat.min (Z.to_nat z) (Z.to_nat e)). split; [f_equal; lia|]. split; [lia|]. cbn [cop_result]. rewrite Hl. rewrite firstn_firstn. reflexivity.
    - exists (Z.to_nat e). split; [f_equal; lia|]. split; [lia|]. symmetry. exact Hl. }
  destruct Hm as (m & Hb & Hm & Hf). set (got := cop_result (OpRead n) left) in *.
  assert (Lg : List.length got <= m /\ List.length got <= List.length (rest st)) by (rewrite <- Hf, firstn_length; lia).
  assert (Hg : got = firstn (List.length got) (rest st)).
  { rewrite <- Hf at 1 2. rewrite firstn_length. destruct (Nat.le_gt_cases m (List.length (rest st))); [rewrite Nat.min_l by lia; reflexivity|]. rewrite Nat.min_r by lia. rewrite !firstn_all2 by lia. reflexivity. }
  destruct (cop_result_prefix (OpRead n) left) as [left' El]. fold got in El.
  assert (S : skipn (List.length got) left = left') by (rewrite El at 1; rewrite skipn_app, skipn_all, Nat.sub_diag; reflexivity).
  assert (Ld : List.length left = List.length got + List.length left') by (rewrite El at 1; apply app_length).
  exists got, left', (moved st (List.length got) (e - Z.of_nat (List.length got))). split.
  - unfold stream_read. rewrite Hb. cbn [raw_read]. unfold f_read. assert (Hneg : (Z.of_nat m <? 0)%Z = false) by lia. rewrite Hneg, Nat2Z.id. change (f_rest (s_fh st)) with (rest st). rewrite Hf.
    change (set_fh st (f_advance (s_fh st) (List.length got))) with (adv st (List.length got)). unfold count_down. rewrite eoc_adv, He. reflexivity.
  - split; [exact El|]. split; [reflexivity|]. exists (e - Z.of_nat (List.length got))%Z. split; [reflexivity|]. split; [lia|]. split.
    + change (rest (moved st ?k ?q)) with (rest (adv st k)). rewrite rest_adv, <- S, Hl, skipn_firstn_comm. f_equal. lia.
    + rewrite <- Hx, Ld. clearbody got. unfold moved, adv, set_fh, set_eoc. cbn. rewrite f_advance_advance. do 2 f_equal. lia.
Qed.
Lemma there_copy next fuel : forall st left out, there next st left -> List.length left < fuel ->
  exists st', copy_loop fuel CF_stream st out = (Ret tt, CF_stream, st', out ++ left) /\ there next st' [].
Proof.
  induction fuel as [|fuel IH]; intros st left out H Hf; [lia|]. cbn [copy_loop cf_read].
  destruct (there_read next st left (Some (Z.of_nat (Z.to_nat CHUNK_SIZE))) H (Nat2Z.is_nonneg _)) as (got & left' & st' & E & L & G & H'). rewrite E. destruct got as [|c got].
  - exists st'. assert (left = []) as ->.
    { cbn [cop_result] in G. rewrite Nat2Z.id in G. destruct left as [|c l]; [reflexivity|]. assert (K : exists m, Z.to_nat CHUNK_SIZE = Datatypes.S m) by (exists (pred (Z.to_nat CHUNK_SIZE)); unfold CHUNK_SIZE; lia). destruct K as [m K]. rewrite K in G. discriminate. }
    symmetry in L. apply app_eq_nil in L as [_ ->]. rewrite app_nil_r. auto.
  - rewrite L in Hf. rewrite app_length in Hf. cbn [List.length] in Hf. destruct (IH st' left' (out ++ c :: got) H') as (st2 & E2 & H2); [lia|]. exists st2. rewrite E2, L, app_assoc. auto.
Qed.
Lemma there_fuel next st left : there next st left -> List.length left < cf_fuel CF_stream st.
Proof. intros (e & _ & _ & Hl & _). cbn [cf_fuel]. pose proof (rest_fuel st) as Q. rewrite Hl, firstn_length. lia. Qed.
Lemma there_one next next' st l1 l2 : there next st l1 -> there next' st l2 -> l1 = l2.
Proof. intros (e & E & _ & L & _) (e' & E' & _ & L' & _). congruence. Qed.
Lemma skip_loop_there fuel : forall next st left, there next st left -> List.length left < fuel ->
  skip_loop fuel st = (if (match s_eoc next with Some e => e =? 0 | None => true end)%Z then Ret tt else Raise E_short, next).
Proof.
  induction fuel as [|fuel IH]; intros next st left (e & He & Hn & Hl & Hx) Hf; [lia|]. cbn [skip_loop]. rewrite He. destruct (Z.ltb_spec 0 e) as [P|P].
  - set (n := Z.to_nat (Z.min CHUNK_SIZE e)). assert (Hz : Z.min CHUNK_SIZE e = Z.of_nat n) by (unfold n, CHUNK_SIZE; lia). rewrite Hz. assert (Hn1 : 1 <= n <= Z.to_nat e) by (unfold CHUNK_SIZE in Hz; lia). clearbody n.
    cbn [raw_read]. unfold f_read. assert (Hneg : (Z.of_nat n <? 0)%Z = false) by lia. rewrite Hneg, Nat2Z.id. change (f_rest (s_fh st)) with (rest st). rewrite firstn_length.
    change (set_fh st (f_advance (s_fh st) ?k)) with (adv st k). unfold count_down. rewrite eoc_adv, He. destruct (Nat.le_gt_cases n (List.length (rest st))) as [L|L].
    + rewrite Nat.min_l by exact L. rewrite Z.ltb_irrefl. change (set_eoc (adv st n) (Some (e - Z.of_nat n)%Z)) with (moved st n (e - Z.of_nat n)).
      assert (Ll : n <= List.length left) by (rewrite Hl, firstn_length; lia).
      apply (IH next _ (skipn n left)); [|rewrite skipn_length; lia]. exists (e - Z.of_nat n)%Z. split; [reflexivity|]. split; [lia|]. split.
      * change (rest (moved st ?k ?q)) with (rest (adv st k)). rewrite rest_adv, Hl, skipn_firstn_comm. f_equal. lia.
      * rewrite <- Hx. unfold moved, adv, set_fh, set_eoc. cbn. rewrite f_advance_advance, skipn_length. replace (n + (List.length left - n)) with (List.length left) by lia. replace (e - Z.of_nat n - Z.of_nat (List.length left - n))%Z with (e - Z.of_nat (List.length left))%Z by lia. reflexivity.
    + rewrite Nat.min_r by lia. assert (Hb : (Z.of_nat (List.length (rest st)) <? Z.of_nat n)%Z = true) by lia. rewrite Hb.
      assert (El : List.length left = List.length (rest st)) by (rewrite Hl, firstn_length; lia). rewrite <- Hx, El. cbn [moved set_eoc s_eoc]. assert (Hq : (e - Z.of_nat (List.length (rest st)) =? 0)%Z = false) by lia. rewrite Hq. reflexivity.
  - assert (e = 0)%Z as -> by lia. assert (left = []) as -> by (rewrite Hl; reflexivity). rewrite <- Hx. cbn [List.length moved set_eoc s_eoc]. change (0 - Z.of_nat 0 =? 0)%Z with true. f_equal. unfold moved. rewrite adv_0. destruct st as [k f q p]. cbn in He. subst q. reflexivity.
Qed.
Lemma there_next next st left b : there next st left -> read_record st b = read_record next b.
Proof.
  intro H. pose proof H as (e & He & Hn & Hl & Hx). assert (Ks : s_kind next = s_kind st) by (rewrite <- Hx; reflexivity).
  assert (Hnext : there next next []).
  { exists (e - Z.of_nat (List.length left))%Z. assert (Ll : List.length left <= Z.to_nat e) by (rewrite Hl, firstn_length; lia). split; [rewrite <- Hx; reflexivity|]. split; [lia|]. split.
    - rewrite <- Hx. change (rest (moved st ?k ?q)) with (rest (adv st k)). rewrite rest_adv, Hl, firstn_length. destruct (Nat.le_gt_cases (Z.to_nat e) (List.length (rest st))) as [L|L].
      + rewrite Nat.min_l by exact L. replace (Z.to_nat (e - Z.of_nat (Z.to_nat e))) with 0 by lia. reflexivity.
      + rewrite Nat.min_r by lia. rewrite skipn_all, firstn_nil. reflexivity.
    - cbn [List.length]. rewrite <- Hx. unfold moved, adv, set_fh, set_eoc. cbn. rewrite f_advance_0. f_equal. f_equal. lia. }
  pose proof Hnext as (e' & He' & _). unfold read_record. rewrite He, He', Ks. unfold skip_to_eoc.
  rewrite (skip_loop_there _ _ _ _ H) by (apply (there_fuel next st left H)). rewrite (skip_loop_there _ _ _ _ Hnext) by (apply (there_fuel next next [] Hnext)). reflexivity.
Qed.

Section Life.
(** where the stream may be while its last record has [left] to give *)
Variable P : stream -> bytes -> Prop.
Hypothesis P_read : forall st left n, P st left -> nonneg n ->
  exists got left' st', stream_read st n = (Ret got, st') /\ left = got ++ left' /\ got = cop_result (OpRead n) left /\ P st' left'.
Hypothesis P_copy : forall st left fuel out, P st left -> List.length left < fuel ->
  exists st', copy_loop fuel CF_stream st out = (Ret tt, CF_stream, st', out ++ left) /\ P st' [].
Hypothesis P_fuel : forall st left, P st left -> List.length left < cf_fuel CF_stream st.
Definition shows (r : record) (st : stream) (o : obj) : Prop :=
  r_class r = o_class o /\ r_headers r = o_headers o /\ r_content r = o_known o /\
  match o_file o with
  | None => r_cf r = CF_none
  | Some (data, u) => r_valid r = negb u /\ ((exists rd, r_cf r = CF_own rd /\ full rd /\ concat rd = data) \/ (r_cf r = CF_stream /\ P st data))
  end.
(** what happens to the stream: nothing, or the record's own reading *)
Definition kept (r : record) (st : stream) (t : bytes) (r' : record) (st' : stream) : Prop :=
  ((st' = st /\ (r_cf r = CF_stream -> t = [])) \/ (r_cf r = CF_stream /\ exists left left', P st left /\ left = t ++ left' /\ P st' left')) /\
  (r_cf r' = CF_stream -> r_cf r = CF_stream).
Lemma kept_same r st : kept r st [] r st.
Proof. split; auto. Qed.
Lemma fetch_ok r st o : shows r st o -> exists x r' st' t o', rec_content r st = (x, r', st') /\ fetches o x t o' /\ shows r' st' o' /\ kept r st t r' st'.
Proof.
  intros (H1 & H2 & H3 & H4). unfold rec_content. rewrite H3. destruct (o_known o) as [c|] eqn:K.
  - exists (Ret c), r, st, [], o. split; [reflexivity|]. split; [apply F_known; exact K|]. split; [repeat split; try assumption; congruence|apply kept_same].
  - assert (T : get_header r (ct_name r) = type_header o).
    { unfold get_header, type_header, ct_name, is_warc, warc. rewrite lookup_first, H1, H2. destruct (o_class o); reflexivity. }
    destruct (o_file o) as [[left u]|] eqn:F.
    + destruct H4 as [V [(rd & C & Fu & L)|[C Hh]]]; rewrite C.
      * exists (Ret (type_header o, Some left)). eexists _, st, left, _. split; [unfold rd_read_all; rewrite L, T; reflexivity|]. split; [eapply F_file; eassumption|].
        split; [repeat split; try assumption; cbn; congruence|]. split; [left; split; [reflexivity|congruence]|discriminate].
      * destruct (P_read st left None Hh I) as (got & left' & st' & E & L & G & Hh'). cbn [cop_result] in G. subst got. rewrite E.
        exists (Ret (type_header o, Some left)). eexists _, st', left, _. split; [rewrite T; reflexivity|]. split; [eapply F_file; eassumption|].
        split; [repeat split; try assumption; cbn; congruence|]. split; [right; split; [exact C|exists left, left'; auto]|discriminate].
    + rewrite H4. exists (Raise EAttributeError). eexists _, st, [], o. split; [reflexivity|]. split; [apply F_nothing; assumption|].
      split; [split; [exact H1|]; split; [exact H2|]; split; [cbn; congruence|]; rewrite F; reflexivity|]. split; [left; split; [reflexivity|congruence]|discriminate].
Qed.
Lemma keeps_all nl hs : write_headers true nl hs = lines nl hs.
Proof. unfold write_headers. assert (E : filter (keeps_header true) hs = hs) by (induction hs as [|h t IH]; [reflexivity|]; cbn; f_equal; exact IH). rewrite E. reflexivity. Qed.
Lemma keeps_others nl hs : write_headers false nl hs = lines nl (others hs).
Proof. reflexivity. Qed.
Lemma do_ok r st o op : shows r st o -> (forall rd, op = AssignFile (Some rd) -> full rd) ->
  exists x w r' st' t o', rec_do r st op = (x, w, r', st') /\ does o op x w t o' /\ shows r' st' o' /\ kept r st t r' st' /\ x <> Diverge.
Proof.
  intros Hs Ha. pose proof Hs as (H1 & H2 & H3 & H4).
  assert (Ft : forall x t o', fetches o x t o' -> x <> Diverge) by (intros x t o' X; inversion X; discriminate).
  assert (T : get_header r (ct_name r) = type_header o).
  { unfold get_header, type_header, ct_name, is_warc, warc. rewrite lookup_first, H1, H2. destruct (o_class o); reflexivity. }
  assert (Ln : get_header r (cl_name r) = length_header o).
  { unfold get_header, length_header, cl_name, is_warc, warc. rewrite lookup_first, H1, H2. destruct (o_class o); reflexivity. }
  destruct op as [| | |n|n v|lim|f|gz nl]; cbn [rec_do].
  - destruct (fetch_ok r st o Hs) as (x & r' & st' & t & o' & E & F & S & K). rewrite E. eexists _, _, _, _, t, o'. split; [reflexivity|]. split; [apply D_content; exact F|]. split; [exact S|]. split; [exact K|].
    apply Ft in F. destruct x; [discriminate..|contradiction].
  - assert (Slow : (o_known o = None -> type_header o = None) -> exists x w r' st' t o', (let '(x0, r'0, st'0) := (match rec_content r st with (o0, r'1, st'1) => (omap fst o0, r'1, st'1) end) in (omap VType x0, @nil N, r'0, st'0)) = (x, w, r', st') /\ does o AskType x w t o' /\ shows r' st' o' /\ kept r st t r' st' /\ x <> Diverge).
    { intro Hn. destruct (fetch_ok r st o Hs) as (x & r' & st' & t & o' & E & F & S & K). rewrite E. eexists _, _, _, _, t, o'. split; [reflexivity|].
      split; [|split; [exact S|]; split; [exact K|]; apply Ft in F; destruct x; [discriminate..|contradiction]].
      pose proof (D_type o x t o' Hn F) as D. destruct x; exact D. }
    unfold rec_content_type. rewrite H3. destruct (o_known o) as [c|] eqn:Kn; [apply Slow; discriminate|]. rewrite T. destruct (type_header o) as [ct|] eqn:Ty; [|apply Slow; reflexivity].
    eexists _, _, _, _, [], o. split; [reflexivity|]. split; [apply D_type_header; assumption|]. split; [exact Hs|]. split; [apply kept_same|discriminate].
  - assert (Slow : (o_known o = None -> length_header o = None) -> exists x w r' st' t o', (let '(x0, r'0, st'0) := (match rec_content r st with (o0, r'1, st'1) => (bind o0 (fun c => match snd c with Some d => Ret (Z.of_nat (List.length d)) | None => Raise ETypeError end), r'1, st'1) end) in (omap VLength x0, @nil N, r'0, st'0)) = (x, w, r', st') /\ does o AskLength x w t o' /\ shows r' st' o' /\ kept r st t r' st' /\ x <> Diverge).
    { intro Hn. destruct (fetch_ok r st o Hs) as (x & r' & st' & t & o' & E & F & S & K). rewrite E. eexists _, _, _, _, t, o'. split; [reflexivity|].
      pose proof (Ft _ _ _ F) as Fd. destruct x as [[c [d|]]|e|]; [| | |contradiction]; cbn [bind omap snd].
      - split; [eapply D_length; eassumption|]. split; [exact S|]. split; [exact K|discriminate].
      - split; [eapply D_length_none; eassumption|]. split; [exact S|]. split; [exact K|discriminate].
      - split; [eapply D_length_raise; eassumption|]. split; [exact S|]. split; [exact K|discriminate]. }
    unfold rec_content_length. rewrite H3. destruct (o_known o) as [c|] eqn:Kn; [apply Slow; discriminate|]. rewrite Ln. destruct (length_header o) as [l|] eqn:Le; [|apply Slow; reflexivity].
    destruct (py_int 10 l) as [z|] eqn:Pi; eexists _, _, _, _, [], o; (split; [reflexivity|]); cbn [omap bind].
    + split; [eapply D_length_header; eassumption|]. split; [exact Hs|]. split; [apply kept_same|discriminate].
    + split; [eapply D_length_bad; eassumption|]. split; [exact Hs|]. split; [apply kept_same|discriminate].
  - eexists _, _, _, _, [], o. split; [reflexivity|]. split; [unfold get_header; rewrite lookup_first, H2; apply D_header|]. split; [exact Hs|]. split; [apply kept_same|discriminate].
  - eexists _, _, _, _, [], _. split; [reflexivity|]. split; [apply D_set|]. split; [split; [exact H1|]; split; [cbn; rewrite H2; reflexivity|]; split; [exact H3|exact H4]|]. split; [split; auto|discriminate].
  - destruct (o_file o) as [[left u]|] eqn:F.
    + destruct H4 as [V [(rd & C & Fu & L)|[C Hh]]]; rewrite C; destruct lim as [n|].
      * cbn [cf_read]. pose proof (rd_read_ok rd n Fu) as R. destruct (rd_read rd n) as [d rd']. destruct R as (R1 & R2 & R3 & R4). eexists _, _, _, _, d, _. split; [reflexivity|].
        split; [apply (D_read o n d (concat rd') u); [rewrite F, <- L, R1; reflexivity|exact R3|exact R4]|].
        split; [split; [exact H1|]; split; [exact H2|]; split; [exact H3|]; cbn; split; [exact V|left; exists rd'; auto]|]. split; [split; [left; split; [reflexivity|congruence]|discriminate]|discriminate].
      * cbn [cf_read_all]. eexists _, _, _, _, left, _. split; [unfold rd_read_all; rewrite L; reflexivity|]. split; [apply (D_read_all o left u F)|].
        split; [split; [exact H1|]; split; [exact H2|]; split; [exact H3|]; cbn; split; [exact V|left; exists []; repeat split; constructor]|]. split; [split; [left; split; [reflexivity|congruence]|discriminate]|discriminate].
      * cbn [cf_read]. destruct (P_read st left (Some (Z.of_nat n)) Hh (Nat2Z.is_nonneg n)) as (got & left' & st' & E & L & G & Hh'). rewrite E. cbn [cop_result] in G. rewrite Nat2Z.id in G.
        eexists _, _, _, _, got, _. split; [reflexivity|]. split; [apply (D_read o n got left' u); [rewrite F, L; reflexivity|rewrite G, firstn_length; lia|]|].
        { intro X. rewrite X in G. destruct n as [|n]; [left; reflexivity|]. right. destruct left as [|c l]; [|discriminate]. destruct got; [symmetry; exact L|discriminate]. }
        split; [split; [exact H1|]; split; [exact H2|]; split; [exact H3|]; cbn; split; [exact V|right; auto]|]. split; [split; [right; split; [exact C|exists left, left'; auto]|auto]|discriminate].
      * cbn [cf_read_all]. destruct (P_read st left None Hh I) as (got & left' & st' & E & L & G & Hh'). rewrite E. cbn [cop_result] in G. subst got.
        assert (left' = []) as -> by (apply (app_inv_head left); rewrite app_nil_r; symmetry; exact L).
        eexists _, _, _, _, left, _. split; [reflexivity|]. split; [apply (D_read_all o left u F)|].
        split; [split; [exact H1|]; split; [exact H2|]; split; [exact H3|]; cbn; split; [exact V|right; auto]|]. split; [split; [right; split; [exact C|exists left, []; rewrite app_nil_r; auto]|auto]|discriminate].
    + rewrite H4. eexists _, _, _, _, [], o. split; [destruct lim; reflexivity|]. split; [apply D_read_none; exact F|].
      split; [split; [exact H1|]; split; [exact H2|]; split; [exact H3|]; rewrite F; reflexivity|]. split; [split; [left; split; [reflexivity|congruence]|discriminate]|discriminate].
  - destruct f as [rd|]; eexists _, _, _, _, [], _; (split; [reflexivity|]).
    + split; [apply D_assign|]. split; [split; [exact H1|]; split; [exact H2|]; split; [exact H3|]; cbn; split; [reflexivity|left; exists rd; auto]|]. split; [split; [left; split; [reflexivity|congruence]|discriminate]|discriminate].
    + split; [apply D_unassign|]. split; [split; [exact H1|]; split; [exact H2|]; split; [exact H3|]; reflexivity|]. split; [split; [left; split; [reflexivity|congruence]|discriminate]|discriminate].
  - unfold write_to. destruct (o_file o) as [[left u]|] eqn:F.
    + destruct H4 as [V H4]. assert (Hc : has_cf r = true) by (unfold has_cf; destruct H4 as [(rd & -> & _)|[-> _]]; reflexivity).
      assert (M : forall A (a b : A), match r_cf r with CF_unset => a | _ => b end = b) by (intros A a b; destruct H4 as [(rd & -> & _)|[-> _]]; reflexivity).
      rewrite M, Hc, V. clear M. destruct u; cbn [negb andb].
      * eexists _, _, _, _, [], o. split; [reflexivity|]. split; [eapply D_used; exact F|]. split; [exact Hs|]. split; [apply kept_same|discriminate].
      * unfold rec_write. rewrite H1. destruct (o_class o) as [v| |] eqn:Cl.
        { unfold warc_write. rewrite Hc, keeps_all, H2.
          destruct H4 as [(rd & C & Fu & L)|[C Hh]].
          - rewrite C. cbn [cf_fuel]. rewrite copy_own_all by (try exact Fu; lia). cbn [has_cf with_valid with_cf r_cf]. eexists _, _, _, _, left, (left_with o (Some ([], true))). split; [reflexivity|].
            split; [|split; [split; [cbn; congruence|]; split; [exact H2|]; split; [exact H3|]; cbn; split; [reflexivity|left; exists []; repeat split; constructor]|]; split; [split; [left; split; [reflexivity|congruence]|discriminate]|discriminate]].
            pose proof (D_write_file o gz nl v left Cl F) as D. unfold file_text, packed in D. cbn [omap bind]. rewrite L. rewrite <- !app_assoc. rewrite <- ?app_assoc in D. exact D.
          - rewrite C. pose proof (P_fuel _ _ Hh) as Hf.
            match goal with |- context [copy_loop ?f ?c ?s ?q] => destruct (P_copy st left f q Hh Hf) as (st' & E & Hh') end. rewrite E. cbn [has_cf with_valid with_cf r_cf]. eexists _, _, _, _, left, (left_with o (Some ([], true))). split; [reflexivity|].
            split; [|split; [split; [cbn; congruence|]; split; [exact H2|]; split; [exact H3|]; cbn; split; [reflexivity|right; auto]|]; split; [split; [right; split; [exact C|exists left, []; rewrite app_nil_r; auto]|auto]|discriminate]].
            pose proof (D_write_file o gz nl v left Cl F) as D. unfold file_text, packed in D. cbn [omap bind]. rewrite <- !app_assoc. rewrite <- ?app_assoc in D. exact D. }
        all: rewrite Hc; eexists _, _, _, _, [], _; (split; [reflexivity|]); (split; [apply (D_write_arc_file o gz nl left); [unfold warc; rewrite Cl; reflexivity|exact F]|]);
          (split; [split; [cbn; congruence|]; split; [exact H2|]; split; [exact H3|]; cbn; split; [reflexivity|exact H4]|]); split; [split; auto|discriminate].
    + rewrite H4. assert (Hc : has_cf r = false) by (unfold has_cf; rewrite H4; reflexivity). rewrite Hc. cbn [andb]. unfold rec_write. rewrite H1. destruct (o_class o) as [v| |] eqn:Cl.
      * unfold warc_write. rewrite Hc, keeps_others, H2. unfold rec_content. rewrite H3, H4. destruct (o_known o) as [[ct body]|] eqn:Kn.
        { rewrite Hc. eexists _, _, _, _, [], o. split; [reflexivity|]. split; [|split; [exact Hs|]; split; [apply kept_same|discriminate]].
          pose proof (D_write_known o gz nl v ct body Cl F Kn) as D. unfold known_text, packed in D. cbn [omap bind].
          destruct ct as [[|c ct]|], body as [body|]; cbn [truthy or_empty]; rewrite <- ?app_assoc; rewrite <- ?app_assoc in D; exact D. }
        { eexists _, _, _, _, [], o. split; [reflexivity|]. split; [exact (D_write_nothing o gz nl v Cl F Kn)|]. split; [split; [cbn; congruence|]; split; [exact H2|]; split; [cbn; congruence|]; rewrite F; reflexivity|].
          split; [split; [left; split; [reflexivity|congruence]|discriminate]|discriminate]. }
      * rewrite Hc. eexists _, _, _, _, [], o. split; [reflexivity|]. split; [apply (D_write_arc o gz nl); [unfold warc; rewrite Cl; reflexivity|exact F]|]. split; [exact Hs|]. split; [apply kept_same|discriminate].
      * rewrite Hc. eexists _, _, _, _, [], o. split; [reflexivity|]. split; [apply (D_write_arc o gz nl); [unfold warc; rewrite Cl; reflexivity|exact F]|]. split; [exact Hs|]. split; [apply kept_same|discriminate].
Qed.
(** files given to the record do not pretend to be at their end: all their pieces are non-empty *)
Definition files_ok (ops : list rop) : Prop := Forall (fun op => forall rd, op = AssignFile (Some rd) -> Forall (fun p => p <> []) rd) ops.
Definition moved_on (r : record) (st st' : stream) : Prop := st' = st \/ (r_cf r = CF_stream /\ exists left, P st' left).
Lemma life_ok ops : forall r st o, shows r st o -> files_ok ops ->
  exists xs r' st' ts o', rec_life r st ops = (xs, r', st') /\ lives o ops xs ts o' /\ shows r' st' o' /\ moved_on r st st'.
Proof.
  induction ops as [|op ops IH]; intros r st o Hs Hf.
  - exists [], r, st, [], o. split; [reflexivity|]. split; [constructor|]. split; [exact Hs|left; reflexivity].
  - inversion Hf as [|? ? F1 F2]; subst. destruct (do_ok r st o op Hs F1) as (x & w & r1 & st1 & t & o1 & E & D & S1 & K1 & Nd). destruct (IH r1 st1 o1 S1 F2) as (xs & r2 & st2 & ts & o2 & E2 & L2 & S2 & K2).
    exists ((x, w) :: xs), r2, st2, (t :: ts), o2. cbn [rec_life]. rewrite E, E2. split; [destruct x; [reflexivity..|contradiction]|]. split; [econstructor; eassumption|]. split; [exact S2|].
    destruct K1 as [K1 K1']. destruct K2 as [-> |[C X]]; [|right; auto]. destruct K1 as [[-> _]|(C & l1 & l2 & _ & _ & X)]; [left; reflexivity|right; split; [exact C|exists l2; exact X]].
Qed.
End Life.
Definition here_do after next := do_ok (here after next) (here_read after next) (here_copy after next) (here_fuel after next).
Definition there_life next := life_ok (there next) (there_read next) (fun st left fuel out => there_copy next fuel st left out) (there_fuel next).

(** ** Where histories start *)
(** a record made by the caller from content or a file, or one just read that declares [n]
    bytes of payload: what follows in the file, up to that many bytes *)
Inductive starts : obj -> record -> stream -> Prop :=
| S_made v hs content errs file st : (forall rd, file = Some rd -> Forall (fun p => p <> []) rd) ->
    starts (mkobj (RWarc v) hs content (option_map (fun rd => (concat rd, false)) file))
           (new_warc v hs content errs (match file with Some rd => CF_own rd | None => CF_none end)) st
| S_read r st n : r_cf r = CF_stream -> r_valid r = true -> r_content r = None -> s_eoc st = Some n -> (0 <= n)%Z ->
    starts (mkobj (r_class r) (r_headers r) None (Some (firstn (Z.to_nat n) (f_rest (s_fh st)), false))) r st.

(** Every call of every history has the result the specification gives, and the next
    record is read as if the record had not been touched. *)
Theorem C86_history : forall o r st ops, starts o r st -> files_ok ops ->
  exists xs r' st' ts o', rec_life r st ops = (xs, r', st') /\ lives o ops xs ts o' /\ forall b, read_record st' b = read_record st b.
Proof.
  intros o r st ops Hs Hf. destruct Hs as [v hs content errs file st Hfile|r st e Hc Hv Hk He Hn].
  - destruct (there_life st ops (new_warc v hs content errs (match file with Some rd => CF_own rd | None => CF_none end)) st (mkobj (RWarc v) hs content (option_map (fun rd => (concat rd, false)) file))) as (xs & r' & st' & ts & o' & E & L & S & K); [|exact Hf|].
    + split; [reflexivity|]. split; [reflexivity|]. split; [reflexivity|]. destruct file as [rd|]; cbn; [|reflexivity]. split; [reflexivity|]. left. exists rd. repeat split. apply Hfile. reflexivity.
    + exists xs, r', st', ts, o'. split; [exact E|]. split; [exact L|]. intro b. destruct K as [-> |[C _]]; [reflexivity|]. destruct file; discriminate.
  - set (data := firstn (Z.to_nat e) (f_rest (s_fh st))). pose proof (there_start st e He Hn) as H0. fold (rest st) in data. fold data in H0.
    destruct (there_life (moved st (List.length data) (e - Z.of_nat (List.length data))) ops r st (mkobj (r_class r) (r_headers r) None (Some (data, false)))) as (xs & r' & st' & ts & o' & E & L & S & K); [|exact Hf|].
    + split; [reflexivity|]. split; [reflexivity|]. split; [exact Hk|]. cbn. split; [exact Hv|]. right. split; [exact Hc|exact H0].
    + exists xs, r', st', ts, o'. split; [exact E|]. split; [exact L|]. intro b. destruct K as [-> |[_ (left & Hh)]]; [reflexivity|].
      rewrite (there_next _ _ _ b Hh), (there_next _ _ _ b H0). reflexivity.
Qed.
(** in particular a record read from an archive *)
Theorem C86_history_of_a_record_read : forall (w : wrec) (sep : bytes) (a : archive) (st : stream) (pos : nat) ops,
  ready st pos (archive_text ((w, sep) :: a)) -> archive_ok ((w, sep) :: a) -> files_ok ops ->
  exists r st1 xs r' st2 ts o', read_record st true = (Ret (Some pos, Some r, []), st1) /\ rec_life r st1 ops = (xs, r', st2) /\
    lives (mkobj (RWarc (w_version w)) (w_headers w) None (Some (w_body w, false))) ops xs ts o' /\ read_record st2 true = read_record st1 true.
Proof.
  intros w sep a st pos ops Hst Hok Hf. destruct (ready_at _ _ _ Hst) as (Hat & Hp & Hk). pose proof (Forall_inv Hok) as [Hw _]. cbn [fst] in Hw.
  destruct (read_first st pos w sep a true Hat Hp) as (st1 & E & [Hi1 Hi2] & _); [rewrite Hk; discriminate|exact Hw|]. rewrite Hk in E.
  assert (Hs0 : starts (mkobj (RWarc (w_version w)) (w_headers w) None (Some (w_body w, false))) (handed w) st1).
  { pose proof (S_read (handed w) st1 _ eq_refl eq_refl eq_refl Hi1 (Nat2Z.is_nonneg _)) as X. assert (Y : firstn (Z.to_nat (Z.of_nat (List.length (w_body w)))) (f_rest (s_fh st1)) = w_body w) by (rewrite Nat2Z.id; unfold rest in Hi2; rewrite Hi2, firstn_app, firstn_all, Nat.sub_diag; apply app_nil_r). rewrite Y in X. exact X. }
  destruct (C86_history _ _ _ ops Hs0 Hf) as (xs & r' & st2 & ts & o' & E2 & L & N).
  exists (handed w), st1, xs, r', st2, ts, o'. split; [exact E|]. split; [exact E2|]. split; [exact L|apply N].
Qed.

(** ** What follows for callers *)
Lemma fetches_known o x t o' c : fetches o x t o' -> o_known o = Some c -> x = Ret c /\ o' = o.
Proof. intros H K. inversion H; subst; split; congruence. Qed.
Lemma does_known o op x w t o' c : does o op x w t o' -> o_known o = Some c -> o_known o' = Some c.
Proof.
  intros H K. inversion H; subst; try assumption; try congruence;
  match goal with F : fetches _ _ _ _ |- _ => destruct (fetches_known _ _ _ _ _ F K) as [? ->]; exact K end.
Qed.
Lemma lives_known o ops xs ts o' c : lives o ops xs ts o' -> o_known o = Some c -> o_known o' = Some c.
Proof. intros H K. induction H as [|o op x w t o1 ops xs ts o2 D L IH]; [exact K|]. apply IH. eapply does_known; eassumption. Qed.
Lemma lives_app o a : forall b xs ts o', lives o (a ++ b) xs ts o' -> exists xs1 xs2 ts1 ts2 o1, xs = xs1 ++ xs2 /\ ts = ts1 ++ ts2 /\ lives o a xs1 ts1 o1 /\ lives o1 b xs2 ts2 o'.
Proof.
  revert o. induction a as [|op a IH]; intros o b xs ts o' H; [exists [], xs, [], ts, o; repeat split; auto; constructor|]. cbn [app] in H. inversion H as [|? ? x w t o1 ? xs0 ts0 ? D L]; subst.
  destruct (IH _ _ _ _ _ L) as (xs1 & xs2 & ts1 & ts2 & o2 & -> & -> & L1 & L2). exists ((x, w) :: xs1), xs2, (t :: ts1), ts2, o2. repeat split; try assumption. econstructor; eassumption.
Qed.
Lemma lives_length o ops xs ts o' : lives o ops xs ts o' -> List.length xs = List.length ops.
Proof. intro H. induction H as [|o op x w t o1 ops xs ts o2 D L IH]; [reflexivity|]. cbn. f_equal. exact IH. Qed.
(** the headers as the calls have left them *)
Definition headers_after (hs : list header) (ops : list rop) : list header :=
  fold_left (fun hs op => match op with SetHeader n v => filter (fun h => negb (bytes_eqb (fst h) n)) hs ++ [(n, v)] | _ => hs end) ops hs.
Lemma does_headers o op x w t o' : does o op x w t o' -> o_class o' = o_class o /\ o_headers o' = headers_after (o_headers o) [op].
Proof.
  intro H. assert (F : forall x t o', fetches o x t o' -> o_class o' = o_class o /\ o_headers o' = o_headers o) by (intros x0 t0 o0 X; inversion X; subst; split; reflexivity).
  inversion H; subst; try (split; reflexivity); eapply F; eassumption.
Qed.
Lemma lives_headers o ops xs ts o' : lives o ops xs ts o' -> o_class o' = o_class o /\ o_headers o' = headers_after (o_headers o) ops.
Proof.
  intro H. induction H as [|o op x w t o1 ops xs ts o2 D L IH]; [split; reflexivity|]. apply does_headers in D as [D1 D2]. destruct IH as [I1 I2]. split; [congruence|].
  rewrite I2, D2. reflexivity.
Qed.

(** What content has once returned it returns for ever, and type and length are those of it,
    whatever is done to the record, even if it is given a new content file. *)
Theorem C86_content_never_changes : forall o r st before op after c out, starts o r st -> files_ok (before ++ [AskContent] ++ after ++ [op]) ->
  nth (List.length before) (fst (fst (rec_life r st (before ++ [AskContent] ++ after ++ [op])))) (Diverge, []) = (Ret (VContent c), out) ->
  exists xs r' st' x, rec_life r st (before ++ [AskContent] ++ after ++ [op]) = (xs ++ [x], r', st') /\
    match op with
    | AskContent => x = (Ret (VContent c), [])
    | AskType => x = (Ret (VType (fst c)), [])
    | AskLength => x = (match snd c with Some d => Ret (VLength (Z.of_nat (List.length d))) | None => Raise ETypeError end, [])
    | _ => True
    end.
Proof.
  intros o r st before op after c out Hs Hf Hn. destruct (C86_history o r st _ Hs Hf) as (xs & r' & st' & ts & o' & E & L & _). rewrite E in *. cbn [fst] in Hn.
  destruct (lives_app _ _ _ _ _ _ L) as (x1 & x2 & t1 & t2 & o1 & -> & -> & L1 & L2). pose proof (lives_length _ _ _ _ _ L1) as Len. rewrite <- Len in Hn. rewrite app_nth2, Nat.sub_diag in Hn by lia.
  destruct (lives_app _ _ _ _ _ _ L2) as (x3 & x4 & t3 & t4 & o2 & -> & -> & L3 & L4). destruct (lives_app _ _ _ _ _ _ L4) as (x5 & x6 & t5 & t6 & o3 & -> & -> & L5 & L6).
  inversion L3 as [|? ? x w t ? ? ? ? ? D3 L3']; subst. inversion L3'; subst. cbn [app nth] in Hn. injection Hn as -> ->.
  assert (K : o_known o2 = Some c).
  { inversion D3 as [? x0 ? ? F| | | | | | | | | | | | | | | | | | | |]; subst. inversion F; subst; cbn in *; congruence. }
  pose proof (lives_known _ _ _ _ _ _ L5 K) as K3. inversion L6 as [|? ? x w' t' ? ? ? ? ? D6 L6']; subst. inversion L6'; subst.
  exists (x1 ++ [(Ret (VContent c), out)] ++ x5), r', st', (x, w'). split; [rewrite <- !app_assoc; reflexivity|].
  destruct op; try exact I; inversion D6; subst; try congruence;
    match goal with F : fetches _ _ _ _ |- _ => destruct (fetches_known _ _ _ _ _ F K3) as [Fx ->]; first [subst; reflexivity | injection Fx as <-; reflexivity | discriminate] end.
Qed.

(** ** Written once *)
(** calls that neither fetch the content nor change the content file *)
Definition quiet (op : rop) : Prop := match op with AskHeader _ | SetHeader _ _ | ReadFile _ | Write _ _ => True | _ => False end.
Definition no_write (op : rop) : Prop := match op with Write _ _ => False | _ => True end.
(** what the calls of content_file.read among them returned *)
Definition read_by (ops : list rop) (xs : list (outcome val * bytes)) : bytes :=
  concat (map (fun p => match p with (ReadFile _, (Ret (VBytes d), _)) => d | _ => [] end) (combine ops xs)).
Definition refused (ops : list rop) (xs : list (outcome val * bytes)) : Prop :=
  Forall2 (fun op x => match op with Write _ _ => x = (Raise E_used, []) | _ => True end) ops xs.
Lemma quiet_reads o ops xs ts o' data u : lives o ops xs ts o' -> Forall quiet ops -> Forall no_write ops -> o_file o = Some (data, u) ->
  exists rest, data = read_by ops xs ++ rest /\ o_file o' = Some (rest, u) /\ o_known o' = o_known o.
Proof.
  intro H. revert data. induction H as [o|o op x w t o1 ops xs ts o2 D L IH]; intros data Hq Hw F; [exists data; auto|].
  inversion Hq as [|? ? Q1 Q2]; inversion Hw as [|? ? W1 W2]; subst. unfold read_by. cbn [combine map concat]. fold (read_by ops xs).
  destruct op as [| | |n|n v|lim|f|gz nl]; try contradiction; inversion D; subst; cbn [app].
  - exact (IH _ Q2 W2 F).
  - exact (IH _ Q2 W2 F).
  - match goal with X : o_file _ = Some (?g ++ ?l, ?b) |- _ => rewrite F in X; injection X as -> ->; destruct (IH l Q2 W2 eq_refl) as (rest & E1 & E2 & E3); exists rest; rewrite E1 at 1; rewrite app_assoc; auto end.
  - match goal with X : o_file _ = Some (?l, ?b) |- _ => rewrite F in X; injection X as -> -> end. destruct (IH [] Q2 W2 eq_refl) as (rest & E1 & E2 & E3). exists rest. rewrite <- app_assoc, <- E1, app_nil_r. auto.
  - congruence.
Qed.
Lemma quiet_refused o ops xs ts o' data : lives o ops xs ts o' -> Forall quiet ops -> o_file o = Some (data, true) -> refused ops xs.
Proof.
  intro H. revert data. induction H as [o|o op x w t o1 ops xs ts o2 D L IH]; intros data Hq F; [constructor|]. inversion Hq as [|? ? Q1 Q2]; subst.
  destruct op as [| | |n|n v|lim|f|gz nl]; try contradiction; inversion D; subst; try congruence; (constructor; [try exact I; try reflexivity|eapply IH; [exact Q2|try exact F]]).
  - cbn. match goal with X : o_file _ = Some (_, ?b) |- _ => rewrite F in X; injection X as _ <- end. reflexivity.
  - cbn. match goal with X : o_file _ = Some (_, ?b) |- _ => rewrite F in X; injection X as _ <- end. reflexivity.
Qed.
Lemma write_once o before gz nl after xs ts o' data v : lives o (before ++ [Write gz nl] ++ after) xs ts o' -> Forall quiet before -> Forall no_write before -> Forall quiet after ->
  o_class o = RWarc v -> o_file o = Some (data, false) ->
  exists xs1 xs2 rest, xs = xs1 ++ [(Ret VNone, packed gz (file_text v nl (headers_after (o_headers o) before) rest))] ++ xs2 /\ List.length xs1 = List.length before /\
    data = read_by before xs1 ++ rest /\ refused after xs2.
Proof.
  intros L Q1 W1 Q2 Hv F. destruct (lives_app _ _ _ _ _ _ L) as (x1 & x2 & t1 & t2 & o1 & -> & -> & L1 & L2). destruct (lives_headers _ _ _ _ _ L1) as [C1 H1].
  destruct (quiet_reads _ _ _ _ _ _ _ L1 Q1 W1 F) as (rest & E1 & F1 & _). pose proof (lives_length _ _ _ _ _ L1) as Len.
  destruct (lives_app _ [Write gz nl] _ _ _ _ L2) as (x3 & x4 & t3 & t4 & o2 & -> & -> & L3 & L4). inversion L3 as [|? ? x w t ? ? ? ? ? D L3']; subst. inversion L3'; subst.
  exists x1, x4, rest. inversion D; subst; try congruence; unfold warc in *; try (rewrite C1, Hv in *; discriminate).
  match goal with X : o_file o1 = Some (?l, false) |- _ => rewrite F1 in X; injection X as -> end. match goal with X : o_class o1 = RWarc ?q |- _ => assert (q = v) as -> by congruence end.
  rewrite H1. split; [reflexivity|]. split; [exact Len|]. split; [reflexivity|]. eapply quiet_refused; [exact L4|exact Q2|reflexivity].
Qed.
(** A record with a content file is written once.  Before, headers may be set and the file be
    read from: what is written has the headers as they then are, and what is left of the file.
    After it, each attempt raises and writes nothing. *)
Theorem C86_written_once : forall o r st before gz nl after data v, starts o r st -> o_class o = RWarc v -> o_file o = Some (data, false) ->
  Forall quiet before -> Forall no_write before -> Forall quiet after ->
  exists xs1 xs2 rest r' st', rec_life r st (before ++ [Write gz nl] ++ after) =
      (xs1 ++ [(Ret VNone, packed gz (file_text v nl (headers_after (o_headers o) before) rest))] ++ xs2, r', st') /\
    List.length xs1 = List.length before /\ data = read_by before xs1 ++ rest /\ refused after xs2.
Proof.
  intros o r st before gz nl after data v Hs Hv F Q1 W1 Q2. destruct (C86_history o r st (before ++ [Write gz nl] ++ after) Hs) as (xs & r' & st' & ts & o' & E & L & _).
  { assert (K : forall l, Forall quiet l -> files_ok l) by (intros l; apply Forall_impl; intros op Hq rd ->; contradiction). apply Forall_app. split; [apply K, Q1|]. constructor; [discriminate|apply K, Q2]. }
  destruct (write_once _ _ _ _ _ _ _ _ _ _ L Q1 W1 Q2 Hv F) as (xs1 & xs2 & rest & -> & Len & D & R). exists xs1, xs2, rest, r', st'. auto.
Qed.
(** A new content file can be written in the same way, whatever was done before and
    whatever content says. *)
Theorem C86_new_file_is_written : forall o r st ops rd before gz nl after v, starts o r st -> files_ok ops -> Forall (fun p => p <> []) rd -> o_class o = RWarc v ->
  Forall quiet before -> Forall no_write before -> Forall quiet after ->
  exists xs xs1 xs2 rest r' st', rec_life r st (ops ++ [AssignFile (Some rd)] ++ before ++ [Write gz nl] ++ after) =
      (xs ++ [(Ret VNone, [])] ++ xs1 ++ [(Ret VNone, packed gz (file_text v nl (headers_after (o_headers o) (ops ++ before)) rest))] ++ xs2, r', st') /\
    List.length xs = List.length ops /\ List.length xs1 = List.length before /\ concat rd = read_by before xs1 ++ rest /\ refused after xs2.
Proof.
  intros o r st ops rd before gz nl after v Hs Hf Hrd Hv Q1 W1 Q2. destruct (C86_history o r st (ops ++ [AssignFile (Some rd)] ++ before ++ [Write gz nl] ++ after) Hs) as (xs & r' & st' & ts & o' & E & L & _).
  { assert (K : forall l, Forall quiet l -> files_ok l) by (intros l; apply Forall_impl; intros op Hq rd0 ->; contradiction).
    apply Forall_app. split; [exact Hf|]. constructor; [intros q X; injection X as <-; exact Hrd|]. apply Forall_app. split; [apply K, Q1|]. constructor; [discriminate|apply K, Q2]. }
  destruct (lives_app _ _ _ _ _ _ L) as (x1 & x2 & t1 & t2 & o1 & -> & -> & L1 & L2). destruct (lives_headers _ _ _ _ _ L1) as [C1 H1]. pose proof (lives_length _ _ _ _ _ L1) as Len1.
  inversion L2 as [|? ? x w t ? ? ? ? ? D1 L3]; subst. inversion D1; subst.
  destruct (write_once _ _ _ _ _ _ _ _ (concat rd) v L3 Q1 W1 Q2) as (xs1 & xs2 & rest & -> & Len & D & R); [cbn; congruence|reflexivity|].
  exists x1, xs1, xs2, rest, r', st'. split; [|auto]. rewrite E. repeat f_equal. cbn [left_with o_headers]. rewrite H1. unfold headers_after. rewrite fold_left_app. reflexivity.
Qed.
(** Of a record read, once some of its content file has been read: what write_to writes then
    announces a length its content does not have. *)
Theorem C86_partly_read_then_written : forall (w : wrec) (sep : bytes) (a : archive) (st : stream) (pos : nat) n gz,
  ready st pos (archive_text ((w, sep) :: a)) -> archive_ok ((w, sep) :: a) -> 0 < n -> w_body w <> [] ->
  exists r st1 got rest r' st2, read_record st true = (Ret (Some pos, Some r, []), st1) /\ got <> [] /\ w_body w = got ++ rest /\
    rec_life r st1 [ReadFile (Some n); Write gz CRLF] = ([(Ret (VBytes got), []); (Ret VNone, packed gz (head_text (w_version w) (w_headers w) ++ rest ++ CRLF ++ CRLF))], r', st2) /\
    declared_length (w_headers w) 0 <> Z.of_nat (List.length rest).
Proof.
  intros w sep a st pos n gz Hst Hok Hn Hb. assert (Hf : files_ok [ReadFile (Some n); Write gz CRLF]) by (repeat constructor; discriminate).
  destruct (C86_history_of_a_record_read w sep a st pos _ Hst Hok Hf) as (r & st1 & xs & r' & st2 & ts & o' & E & E2 & L & _).
  inversion L as [|? ? x w1 t ? ? ? ? ? D1 L1]; subst. inversion L1 as [|? ? x' w' t' ? ? ? ? ? D2 L2]; subst. inversion L2; subst. inversion D1; subst; cbn [o_file] in *; [|discriminate].
  match goal with X : Some (_, _) = Some (?g ++ ?l, ?u) |- _ => injection X as Fb Fu; rename g into got; rename l into lf; subst u end. match goal with X : _ = [] -> _ |- _ => rename X into G2 end.
  exists r, st1, got, lf, r', st2. split; [exact E|].
  assert (Hg : got <> []) by (intro X; destruct (G2 X) as [Y|Y]; [lia|subst; rewrite Fb in Hb; auto]). split; [exact Hg|]. split; [exact Fb|]. split.
  - rewrite E2. inversion D2; subst; cbn in *; try congruence; try discriminate.
    match goal with X : Some (_, _) = Some (_, _) |- _ => injection X as -> end. match goal with X : RWarc _ = RWarc _ |- _ => injection X as <- end. unfold file_text, head_text. rewrite <- !app_assoc. reflexivity.
  - pose proof (Forall_inv Hok) as [(_ & _ & _ & Hd) _]. cbn [fst] in Hd. rewrite Hd, Fb, app_length. destruct got; [contradiction|]. cbn [List.length]. lia.
Qed.
(** After a write, content is empty, and from then on the record is written again without
    complaint, as an empty one. *)
Theorem C86_written_again_empty : forall o r st gz nl gz' nl' data v, starts o r st -> o_class o = RWarc v -> o_file o = Some (data, false) -> o_known o = None ->
  exists r' st', rec_life r st [Write gz nl; AskContent; Write gz' nl'] =
    ([(Ret VNone, packed gz (file_text v nl (o_headers o) data)); (Ret (VContent (type_header o, Some [])), []); (Ret VNone, packed gz' (known_text v nl' (o_headers o) (type_header o) (Some [])))], r', st').
Proof.
  intros o r st gz nl gz' nl' data v Hs Hv F K. destruct (C86_history o r st [Write gz nl; AskContent; Write gz' nl'] Hs) as (xs & r' & st' & ts & o' & E & L & _); [repeat constructor; discriminate|].
  exists r', st'. rewrite E. inversion L as [|? ? x w t ? ? ? ? ? D1 L1]; subst. inversion L1 as [|? ? x1 w1 t1 ? ? ? ? ? D2 L2]; subst. inversion L2 as [|? ? x2 w2 t2 ? ? ? ? ? D3 L3]; subst. inversion L3; subst.
  inversion D1; subst; try congruence; unfold warc in *; try (rewrite Hv in *; discriminate).
  match goal with X : o_file o = Some (?l, false) |- _ => rewrite F in X; injection X as -> end. match goal with X : o_class o = RWarc ?q |- _ => rewrite Hv in X; injection X as <- end.
  inversion D2 as [? x0 ? ? Fe| | | | | | | | | | | | | | | | | | | |]; subst. inversion Fe; subst; cbn in *; try congruence. match goal with X : Some (_, _) = Some (_, _) |- _ => injection X as <- <- end.
  inversion D3; subst; cbn in *; try congruence; try discriminate; unfold warc in *; cbn in *; try (rewrite Hv in *; discriminate).
  match goal with X : Some (_, _) = Some (_, _) |- _ => injection X as <- <- end. repeat f_equal; congruence.
Qed.
(** When content is asked for first, every write succeeds, as often as one likes, and writes
    the whole payload under its true length and the headers as they then are. *)
Theorem C86_content_first : forall o r st data v ops, starts o r st -> o_class o = RWarc v -> o_file o = Some (data, false) -> o_known o = None ->
  files_ok ops -> Forall (fun op => match op with AssignFile (Some _) => False | _ => True end) ops ->
  exists xs r' st', rec_life r st (AskContent :: ops) = ((Ret (VContent (type_header o, Some data)), []) :: xs, r', st') /\
    forall i gz nl, nth_error ops i = Some (Write gz nl) -> nth_error xs i = Some (Ret VNone, packed gz (known_text v nl (headers_after (o_headers o) (firstn i ops)) (type_header o) (Some data))).
Proof.
  intros o r st data v ops Hs Hv F K Hf Hno. destruct (C86_history o r st (AskContent :: ops) Hs) as (xs & r' & st' & ts & o' & E & L & _); [constructor; [discriminate|exact Hf]|].
  rewrite E. inversion L as [|? ? x w t o1 ? xs1 ts1 ? D1 L1]; subst. inversion D1 as [? x0 ? ? Fe| | | | | | | | | | | | | | | | | | | |]; subst. inversion Fe; subst; try congruence.
  match goal with X : o_file o = Some (?l, ?u) |- _ => rewrite F in X; injection X as <- <- end.
  exists xs1, r', st'. split; [reflexivity|]. clear - L1 Hno Hv. set (c := type_header o) in *. clearbody c.
  change (o_headers o) with (o_headers (knowing o (c, Some data))). assert (Hv1 : o_class (knowing o (c, Some data)) = RWarc v) by exact Hv. assert (K1 : o_known (knowing o (c, Some data)) = Some (c, Some data)) by reflexivity.
  assert (F1 : o_file (knowing o (c, Some data)) = None) by reflexivity. generalize dependent (knowing o (c, Some data)). clear Hv o. intros o L1 Hv K F.
  induction L1 as [o|o op x w t o1 ops xs ts o2 D L IH]; [intros [|i] gz nl X; discriminate|]. inversion Hno as [|? ? N1 N2]; subst.
  destruct (does_headers _ _ _ _ _ _ D) as [C1 H1]. pose proof (does_known _ _ _ _ _ _ _ D K) as K1.
  assert (F1 : o_file o1 = None) by (inversion D; subst; cbn in N1; try congruence; try contradiction; try exact F; try reflexivity; match goal with Q : fetches _ _ _ _ |- _ => destruct (fetches_known _ _ _ _ _ Q K) as [_ ->]; exact F end).
  intros [|i] gz nl X; cbn [nth_error] in *.
  - injection X as ->. inversion D; subst; try congruence; unfold warc in *; try (rewrite Hv in *; discriminate). cbn [firstn]. unfold headers_after. cbn [fold_left]. repeat f_equal; congruence.
  - rewrite (IH N2 ltac:(congruence) K1 F1 i gz nl X). cbn [firstn]. rewrite H1. reflexivity.
Qed.
(** Of a file's bytes each is handed out at most once, in order: by reading it, as content,
    or by writing the record ([ts]: what each call took from the file). *)
Theorem C86_each_byte_once : forall o r st ops data, starts o r st -> o_file o = Some (data, false) -> files_ok ops ->
  Forall (fun op => match op with AssignFile (Some _) => False | _ => True end) ops ->
  exists xs r' st' ts o' rest, rec_life r st ops = (xs, r', st') /\ lives o ops xs ts o' /\ data = concat ts ++ rest /\
    (forall d u, o_file o' = Some (d, u) -> d = rest).
Proof.
  intros o r st ops data Hs F Hf Hno. destruct (C86_history o r st ops Hs Hf) as (xs & r' & st' & ts & o' & E & L & _).
  assert (N : forall o ops xs ts o', lives o ops xs ts o' -> Forall (fun op => match op with AssignFile (Some _) => False | _ => True end) ops -> o_file o = None -> concat ts = [] /\ o_file o' = None).
  { clear. intros o ops xs ts o' L. induction L as [o|o op x w t o1 ops xs ts o2 D L IH]; intros Hno F; [auto|]. inversion Hno as [|? ? N1 N2]; subst.
    assert (t = [] /\ o_file o1 = None) as [-> F1].
    { inversion D; subst; cbn in N1; try congruence; try contradiction; try (split; [reflexivity|assumption || reflexivity]);
        match goal with Q : fetches _ _ _ _ |- _ => inversion Q; subst; try congruence; auto end. }
    destruct (IH N2 F1) as [I1 I2]. auto. }
  assert (G : forall o ops xs ts o', lives o ops xs ts o' -> Forall (fun op => match op with AssignFile (Some _) => False | _ => True end) ops -> forall data u, o_file o = Some (data, u) ->
    exists rest, data = concat ts ++ rest /\ (forall d u, o_file o' = Some (d, u) -> d = rest)).
  { clear - N. intros o ops xs ts o' L. induction L as [o|o op x w t o1 ops xs ts o2 D L IH]; intros Hno data u F; [exists data; split; [reflexivity|congruence]|]. inversion Hno as [|? ? N1 N2]; subst.
    assert (Q : (exists l u', data = t ++ l /\ o_file o1 = Some (l, u')) \/ (exists l, data = t ++ l) /\ o_file o1 = None).
    { assert (Fe : forall x t o1, fetches o x t o1 -> (exists l u', data = t ++ l /\ o_file o1 = Some (l, u')) \/ (exists l, data = t ++ l) /\ o_file o1 = None).
      { intros x0 t0 o0 Q. inversion Q; subst; [left; exists data, u; auto| |congruence]. right. split; [exists []; rewrite app_nil_r; congruence|reflexivity]. }
      inversion D; subst; cbn in N1; try contradiction; try (eapply Fe; eassumption); cbn [left_with o_file headed]; try congruence;
        try (left; exists data, u; split; [reflexivity|exact F]); try (right; split; [exists data; reflexivity|reflexivity]).
      all: match goal with X : o_file ?a = Some ?p, Y : o_file ?a = Some ?q |- _ => rewrite X in Y; injection Y as Y1 Y2 end; left; eexists _, _; (split; [|reflexivity]); rewrite ?app_nil_r; cbn [app]; congruence. }
    destruct Q as [(l & u' & E1 & F1)|[[l E1] F1]].
    - destruct (IH N2 l u' F1) as (rest & E2 & E3). exists rest. split; [|exact E3]. cbn [concat]. rewrite <- app_assoc, <- E2. exact E1.
    - destruct (N _ _ _ _ _ L N2 F1) as [Z1 Z2]. exists l. cbn [concat]. rewrite Z1, app_nil_r. split; [exact E1|]. intros d u0 X. congruence. }
  destruct (G _ _ _ _ _ L Hno data false F) as (rest & E1 & E2). exists xs, r', st', ts, o', rest. auto.
Qed.

(** ** Concrete cases *)
Definition c86_file : reader := [B "hel"; B "lo"].
Definition c86_headers : list header := [(B "WARC-Type", B "resource"); (B "Content-Type", B "text/plain"); (B "Content-Length", B "5")].
Definition c86_made : record := new_warc (B "WARC/1.0") c86_headers None [] (CF_own c86_file).
Definition c86_obj : obj := mkobj (RWarc (B "WARC/1.0")) c86_headers None (Some (B "hello", false)).
Definition c86_stream : stream := new_stream SPlain (mkfile [] 0 true) PWarc.
Example C86_made_case : starts c86_obj c86_made c86_stream.
Proof. apply (S_made (B "WARC/1.0") c86_headers None [] (Some c86_file)). intros rd X. injection X as <-. repeat constructor; discriminate. Qed.
Definition c86_text (headers : list string) (body : string) : bytes := concat (map (fun h => B h ++ CRLF) headers) ++ CRLF ++ B body ++ CRLF ++ CRLF.
(** written, refused, given a new file, written again *)
Example C86_written_case : fst (fst (rec_life c86_made c86_stream [AskLength; Write None CRLF; Write None CRLF; AssignFile (Some [B "again"]); Write None CRLF])) =
  [(Ret (VLength 5), []); (Ret VNone, c86_text ["WARC/1.0"; "WARC-Type: resource"; "Content-Type: text/plain"; "Content-Length: 5"]%string "hello"%string); (Raise E_used, []); (Ret VNone, []);
   (Ret VNone, c86_text ["WARC/1.0"; "WARC-Type: resource"; "Content-Type: text/plain"; "Content-Length: 5"]%string "again"%string)].
Proof. vm_compute. reflexivity. Qed.
(** written, then asked for its content, then written again: an empty record *)
Example C86_written_empty_case : fst (fst (rec_life c86_made c86_stream [Write None CRLF; AskContent; Write None CRLF])) =
  [(Ret VNone, c86_text ["WARC/1.0"; "WARC-Type: resource"; "Content-Type: text/plain"; "Content-Length: 5"]%string "hello"%string); (Ret (VContent (Some (B "text/plain"), Some [])), []);
   (Ret VNone, c86_text ["WARC/1.0"; "WARC-Type: resource"; "Content-Type: text/plain"; "Content-Length: 0"]%string ""%string)].
Proof. vm_compute. reflexivity. Qed.
(** read from (a short read), then written: the length announced is wrong *)
Example C86_partly_case : fst (fst (rec_life c86_made c86_stream [ReadFile (Some 4); Write None CRLF])) =
  [(Ret (VBytes (B "hel")), []); (Ret VNone, c86_text ["WARC/1.0"; "WARC-Type: resource"; "Content-Type: text/plain"; "Content-Length: 5"]%string "lo"%string)].
Proof. vm_compute. reflexivity. Qed.
(** content asked for first; a header set in between; and content that outlives a new file *)
Example C86_content_first_case : fst (fst (rec_life c86_made c86_stream [AskContent; SetHeader (B "WARC-Type") (B "x"); Write None CRLF; AssignFile (Some [B "new"]); AskContent; Write None CRLF])) =
  [(Ret (VContent (Some (B "text/plain"), Some (B "hello"))), []); (Ret VNone, []); (Ret VNone, c86_text ["WARC/1.0"; "WARC-Type: x"; "Content-Type: text/plain"; "Content-Length: 5"]%string "hello"%string);
   (Ret VNone, []); (Ret (VContent (Some (B "text/plain"), Some (B "hello"))), []); (Ret VNone, c86_text ["WARC/1.0"; "Content-Type: text/plain"; "Content-Length: 5"; "WARC-Type: x"]%string "new"%string)].
Proof. vm_compute. reflexivity. Qed.
(** a record read from an archive *)
Example C86_read_case : exists st, ready st 0 (archive_text [(mkw (B "WARC/1.0") c86_headers (B "hello"), terminator)]) /\ archive_ok [(mkw (B "WARC/1.0") c86_headers (B "hello"), terminator)].
Proof.
  exists (new_stream SPlain (mkfile (archive_text [(mkw (B "WARC/1.0") c86_headers (B "hello"), terminator)]) 0 true) PWarc). split; [repeat split|].
  constructor; [|constructor]. split; [|apply terminator_ok]. apply wrec_okb_sound. reflexivity.
Qed.
