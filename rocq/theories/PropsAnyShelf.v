(** C92: keeping the records of any file while reading on *)
From Verif Require Export AnyShelfSpec PropsShelf.
From Verif Require Import WarcArchive WarcRead PropsRecord PropsFaults WarcLines PropsParse.
From Verif Require Import PropsShelf.
Import PropsMixedAny AnyShelfSpec.
From Coq Require Import String List Lia ZArith.
Open Scope list_scope.

(** ** Reading a record *)
Definition stands_for (w : kind_of_reader) (gz : bool) (names : list bytes) (st : stream) : Prop :=
  s_kind st = (if gz then SGzipRecord else SPlain) /\
  match w with ForWarc => s_parser st = PWarc | ForArc => exists a, s_parser st = PArc a /\ a_headers a = names | ForMixed => exists a, s_parser st = PMixed a /\ a_headers a = names end.
Definition ready3 w gz size names st text : Prop := stands_for w gz names st /\ s_eoc st = None /\ f_rest (s_fh st) = text /\ f_pos (s_fh st) + List.length text = size.
Definition holds (w : kind_of_reader) (gz : bool) (size : nat) (names : list bytes) (st : stream) (s : stage) : Prop :=
  match s with
  | Within lf after => exists next, there next st lf /\ stands_for w gz names next /\
      match after with Some t => s_eoc next = Some 0%Z /\ f_rest (s_fh next) = t /\ f_pos (s_fh next) + List.length t = size | None => exists e, s_eoc next = Some e /\ (0 < e)%Z end
  | Open lf => ready3 w gz size names st lf
  | Negative text => exists d, s_eoc st = Some d /\ (d < 0)%Z /\ stands_for w gz names st /\ f_rest (s_fh st) = text /\ f_pos (s_fh st) + List.length text = size
  | Lost => True
  end.
Lemma there_self next st left : there next st left -> there next next [].
Proof.
  intros (e & He & Hn & Hl & Hx). exists (e - Z.of_nat (List.length left))%Z. assert (Ll : List.length left <= Z.to_nat e) by (rewrite Hl, firstn_length; lia). split; [rewrite <- Hx; reflexivity|]. split; [lia|]. split.
  - rewrite <- Hx. change (rest (moved st ?k ?q)) with (rest (adv st k)). rewrite rest_adv, Hl, firstn_length. destruct (Nat.le_gt_cases (Z.to_nat e) (List.length (rest st))) as [L|L].
    + rewrite Nat.min_l by exact L. replace (Z.to_nat (e - Z.of_nat (Z.to_nat e))) with 0 by lia. reflexivity.
    + rewrite Nat.min_r by lia. rewrite skipn_all, firstn_nil. reflexivity.
  - cbn [List.length]. rewrite <- Hx. unfold moved, adv, set_fh, set_eoc. cbn. rewrite f_advance_0. f_equal. f_equal. lia.
Qed.
Lemma holds_after w gz size names st len more : stands_for w gz names st -> s_eoc st = len -> f_rest (s_fh st) = more -> f_pos (s_fh st) + List.length more = size ->
  holds w gz size names st (stage_after len more).
Proof.
  intros Hs He Hr Hp. unfold stage_after. destruct len as [d|]; [|split; auto]. destruct (Z.ltb_spec d 0) as [L|L]; [exists d; auto|].
  pose proof (there_start st d He L) as T. unfold rest in T. rewrite Hr in T.
  assert (Sf : forall k e, stands_for w gz names (moved st k e)) by (intros k e; exact Hs).
  destruct (Z.leb_spec d (Z.of_nat (List.length more))) as [M|M].
  - assert (K : List.length (firstn (Z.to_nat d) more) = Z.to_nat d) by (rewrite firstn_length; lia). rewrite K in T. cbn [holds]. eexists. split; [exact T|]. split; [apply Sf|]. split; [cbn; f_equal; lia|]. split.
    + change (f_rest (s_fh (moved st ?k ?q))) with (rest (adv st k)). rewrite rest_adv. unfold rest. rewrite Hr. reflexivity.
    + cbn. rewrite skipn_length. lia.
  - rewrite firstn_all2 in T by lia. cbn [holds]. eexists. split; [exact T|]. split; [apply Sf|]. eexists. split; [reflexivity|lia].
Qed.
Lemma stage_ready w gz size names st s text : holds w gz size names st s -> ahead s = Some text -> exists st0, read_record st true = read_record st0 true /\ ready3 w gz size names st0 text.
Proof.
  intros H A. destruct s as [lf [t|]|lf|t|]; cbn [ahead holds] in *; try discriminate; injection A as ->.
  - destruct H as (next & Ht & Hs & He & Hr & Hp). exists (fresh next). split; [rewrite (there_next _ _ _ true Ht); apply (read_record_none _ _ 0%Z He); lia|]. split; [exact Hs|]. split; [reflexivity|]. split; [exact Hr|exact Hp].
  - exists st. auto.
  - destruct H as (d & He & Hd & Hs & Hr & Hp). exists (fresh st). split; [apply (read_record_none _ _ d He); lia|]. split; [exact Hs|]. split; [reflexivity|]. split; [exact Hr|exact Hp].
Qed.
Lemma told_shown gz n : told (true && negb gz) n = shown gz n.
Proof. destruct gz; reflexivity. Qed.
(** no record: how the file stands *)
Lemma gave_up_not junk : gave_up (map ErrIgnored junk) = false.
Proof. unfold gave_up. destruct junk as [|j junk]; [reflexivity|]. assert (E : exists q, last (map ErrIgnored (j :: junk)) (ErrIgnored []) = ErrIgnored q). { revert j. induction junk as [|a l IH]; intro j; [exists j; reflexivity|]. exact (IH a). } destruct E as [q ->]. reflexivity. Qed.
Lemma gave_up_is l : gave_up (l ++ [ErrTooMany]) = true.
Proof. unfold gave_up. rewrite last_last. reflexivity. Qed.
Lemma warc_none gz st pos text n errs : ready_on gz st pos text -> warc_finds text (FNone n errs) ->
  read_record st true = (Ret (told (true && negb gz) (pos + n), None, errs), adv st n) /\ skipn n text = (if gave_up errs then skipn n text else []) /\ n <= List.length text.
Proof.
  intros Hrd Hf. pose proof Hrd as (Hk & Hp & He & Hpos & Hr). assert (Hk' : s_kind st <> SGzipFile) by (rewrite Hk; destruct gz; discriminate).
  pose proof (read_record_any st true He Hp Hk') as H. cbn zeta in H. unfold rest in H. rewrite Hr in H. pose proof (warc_answers gz st pos text true _ Hrd Hf) as A. cbn [answers] in A.
  assert (W : wparse (lines_of text) = WNone errs n /\ skipn n text = (if gave_up errs then skipn n text else []) /\ n <= List.length text).
  { inversion Hf as [Hv H5|before l t El Hb1 Hb2 Hl| | |]; subst n errs.
    - split; [|rewrite gave_up_not, skipn_all; split; [reflexivity|lia]]. unfold wparse. rewrite (vfind_none (lines_of text) [] (no_version_parts _ (lines_ok text) Hv)); [rewrite concat_lines; reflexivity|]. unfold junk_errors. rewrite map_length. exact H5.
    - pose proof (lines_ok text) as Hok. split; [|rewrite gave_up_is; split; [reflexivity|]].
      + assert (Hok2 : ok_lines (before ++ [l])).
        { rewrite El in Hok. apply Forall_app in Hok as [Hok1 Hok2]. apply Forall_app. split; [exact Hok1|]. inversion Hok2; constructor; [assumption|constructor]. }
        pose proof (no_version_parts _ Hok2 Hb1) as Hp1. apply Forall_app in Hp1 as [Hp1 Hp2]. pose proof (Forall_inv Hp2) as Hp2'. cbn beta in Hp2'.
        rewrite El. unfold wparse. rewrite (vfind_give_up before [] l t Hp1); [reflexivity| |exact Hp2'|exact Hl]. cbn [plus List.length] in *. unfold junk_errors. rewrite map_length. exact Hb2.
      + rewrite <- (concat_lines text), El, !concat_app, !app_length. cbn [concat]. rewrite !app_length. cbn [List.length]. lia. }
  destruct W as (W & W2). rewrite W in H. split; [|exact W2]. rewrite H in A |- *. cbn [fst] in A. injection A as ->. reflexivity.
Qed.
Lemma ws_skip_white ls : Forall (fun l => white l = true) ls -> ws_skip ls = [].
Proof. induction 1 as [|l t Hl Ht IH]; [reflexivity|]. cbn [ws_skip]. unfold white in Hl. rewrite Hl. exact IH. Qed.
Lemma arc_none gz st pos text names n errs names' : arc_ready gz st pos text names -> Forall plain_value names -> arc_finds names text (FNone n errs) names' ->
  read_record st true = (Ret (told (true && negb gz) (pos + n), None, errs), adv st (List.length text)) /\ errs = [] /\ names' = names.
Proof.
  intros Hrd Hp Hf. pose proof (arc_answers gz st pos text true names _ _ Hrd Hp Hf) as [A _]. cbn [answers] in A. inversion Hf as [m Hr| |]; subst. inversion Hr as [Hw| | | | | | |]; subst.
  destruct Hrd as (Hk & (a & Hpa & Ha) & He & Hpos & Hx). destruct (read_record_arc_at st a true He Hpa) as (k & Hn & E). unfold rest in Hn, E. rewrite Hx in Hn, E. rewrite (ws_skip_white _ Hw) in Hn, E. cbn [tl concat List.length] in Hn. rewrite Nat.add_0_r in Hn. subst k.
  split; [|auto]. rewrite E in A |- *. unfold ArcFacts.finish in *. rewrite Hk in *. destruct gz; cbn [fst] in A; [reflexivity|injection A as A]. cbn. do 4 f_equal. exact (f_equal Some A).
Qed.
(** one step on *)
Lemma look_ok w gz size names st text f names' : ready3 w gz size names st text -> Forall plain_value names -> look w names text f names' ->
  Forall plain_value names' /\
  match f with
  | FRec n r len more => exists st', read_record st true = (Ret (shown gz (size - List.length text + n), Some r, []), st') /\ holds w gz size names' st' (stage_after len more)
  | FNone n errs => exists st', read_record st true = (Ret (shown gz (size - List.length text + n), None, errs), st') /\ holds w gz size names' st' (Open (if gave_up errs then skipn n text else []))
  | FExn e => fst (read_record st true) = Raise e
  | FHang => fst (read_record st true) = Diverge
  end.
Proof.
  intros ((Hk & Hw) & He & Hr & Hpos) Hpn Hl. assert (Po : size - List.length text = f_pos (s_fh st)) by lia. rewrite Po.
  assert (Hadv : forall k t names0 st0, k <= List.length text -> skipn k text = t -> stands_for w gz names0 st0 -> s_eoc st0 = None -> s_fh st0 = f_advance (s_fh st) k -> ready3 w gz size names0 st0 t).
  { intros k t n0 st0 K T S E F. split; [exact S|]. split; [exact E|]. rewrite F. split; [rewrite <- T, <- Hr; apply f_rest_advance|]. cbn. rewrite <- T, skipn_length. lia. }
  destruct Hl as [f -> Hf|f names' -> Hf|f names' -> Hf].
  - split; [exact Hpn|]. cbn in Hw. assert (Hrd : ready_on gz st (f_pos (s_fh st)) text) by (repeat split; assumption). pose proof (warc_answers gz st _ text true _ Hrd Hf) as A. destruct f as [n errs|n r len more|e|]; cbn [answers] in A.
    + destruct (warc_none _ _ _ _ _ _ Hrd Hf) as (E & S & L). rewrite told_shown in E. eexists. split; [exact E|]. cbn [holds]. apply (Hadv n); [exact L|exact S|split; [exact Hk|exact Hw]|exact He|reflexivity].
    + destruct A as (E & E1 & E2 & E3 & E4). rewrite told_shown in E. destruct (read_record st true) as [x st'] eqn:Er. cbn [fst snd] in *. subst x. eexists. split; [reflexivity|].
      assert (Y : s_parser st' = PWarc) by (clear - Hf Hrd Er; inversion Hf as [| | | |rr mm Hra]; subst; destruct (C71_reading_gives_record gz st _ _ true _ _ Hrd Hra) as (s1 & X & _ & _ & _ & _ & Y & _); rewrite Er in X; inversion X; subst; exact Y).
      apply holds_after; [split; [exact E4|exact Y]|exact E1|exact E2|lia].
    + exact A.
    + exact A.
  - assert (Hrd : ready_any false gz st (f_pos (s_fh st)) text names) by (split; [exact Hk|]; split; [exact Hw|]; repeat split; assumption).
    destruct (any_answers false gz st _ text true names f names' Hrd Hpn Hf) as (A & Hp' & Hs). split; [exact Hp'|]. destruct f as [n errs|n r len more|e|]; cbn [answers] in A.
    + inversion Hf as [f0 X _|f0 n0 X Y]; subst f0; [discriminate|]; subst n0. destruct (arc_none gz st _ text names n errs names' Hrd Hpn Y) as (E & -> & ->). rewrite told_shown in E. eexists. split; [exact E|].
      cbn [holds]. change (gave_up []) with false. cbn iota. apply (Hadv (List.length text)); [lia|apply skipn_all|split; [exact Hk|exact Hw]|exact He|reflexivity].
    + destruct A as (E & E1 & E2 & E3 & E4). rewrite told_shown in E. destruct (read_record st true) as [x st']. cbn [fst snd] in *. subst x. eexists. split; [reflexivity|]. apply holds_after; [split; [exact E4|exact Hs]|exact E1|exact E2|lia].
    + exact A.
    + exact A.
  - assert (Hrd : ready_any true gz st (f_pos (s_fh st)) text names) by (split; [exact Hk|]; split; [exact Hw|]; repeat split; assumption).
    destruct (any_answers true gz st _ text true names f names' Hrd Hpn Hf) as (A & Hp' & Hs). split; [exact Hp'|]. destruct f as [n errs|n r len more|e|]; cbn [answers] in A.
    + destruct Hw as (a & Hpa & Ha). assert (Es : set_parser st (PMixed a) = st) by (rewrite <- Hpa; destruct st; reflexivity).
      pose proof (read_record_mixed st a true He) as E. rewrite Es in E. change (rest st) with (f_rest (s_fh st)) in E. rewrite Hr in E. rewrite first_line_of_text in E by (apply Forall_forall; intros l Hl0; apply (lines_one_line text l Hl0)). fold (warc_ahead text) in E.
      inversion Hf as [f0 X Y|f0 n0 X Y]; subst f0; cbn [andb] in X; rewrite X in E.
      * subst names'. assert (Hro : ready_on gz (set_parser st PWarc) (f_pos (s_fh st)) text) by (repeat split; assumption). destruct (warc_none _ _ _ _ _ _ Hro Y) as (E0 & S & L). rewrite told_shown in E0. rewrite E0 in E. cbn [with_p] in E. eexists. split; [exact E|]. cbn [holds].
        apply (Hadv n); [exact L|exact S|split; [exact Hk|exists a; auto]|exact He|reflexivity].
      * assert (Hra : arc_ready gz (set_parser st (PArc a)) (f_pos (s_fh st)) text names) by (repeat split; try assumption; exists a; auto). destruct (arc_none _ _ _ _ _ _ _ _ Hra Hpn Y) as (E0 & -> & ->). rewrite told_shown in E0. rewrite E0 in E. cbn [arc_of] in E. eexists. split; [exact E|].
        cbn [holds]. change (gave_up []) with false. cbn iota. apply (Hadv (List.length text)); [lia|apply skipn_all|split; [exact Hk|exists a; auto]|exact He|reflexivity].
    + destruct A as (E & E1 & E2 & E3 & E4). rewrite told_shown in E. destruct (read_record st true) as [x st']. cbn [fst snd] in *. subst x. eexists. split; [reflexivity|]. apply holds_after; [split; [exact E4|exact Hs]|exact E1|exact E2|lia].
    + exact A.
    + exact A.
Qed.
Lemma look_total w names text : exists f names', look w names text f names'.
Proof.
  destruct w.
  - destruct (warc_finds_total text) as [f H]. exists f, names. apply look_warc; auto.
  - destruct (finds_total false names text) as (f & n & H). exists f, n. apply look_arc; auto.
  - destruct (finds_total true names text) as (f & n & H). exists f, n. apply look_mixed; auto.
Qed.

(** ** Calls on a record *)
Section Calls.
Variable P : stream -> bytes -> Prop.
Hypothesis P_read : forall st left n, P st left -> nonneg n ->
  exists got left' st', stream_read st n = (Ret got, st') /\ left = got ++ left' /\ got = cop_result (OpRead n) left /\ P st' left'.
Hypothesis P_fuel : forall st left, P st left -> List.length left < cf_fuel CF_stream st.
Hypothesis P_one : forall st l1 l2, P st l1 -> P st l2 -> l1 = l2.
Lemma copy_all fuel : forall st lf out, P st lf -> List.length lf < fuel -> exists st', copy_loop fuel CF_stream st out = (Ret tt, CF_stream, st', out ++ lf) /\ P st' [].
Proof.
  induction fuel as [|fuel IH]; intros st lf out H Hf; [lia|]. cbn [copy_loop cf_read].
  destruct (P_read st lf (Some (Z.of_nat (Z.to_nat CHUNK_SIZE))) H (Nat2Z.is_nonneg _)) as (got & left' & st' & E & L & G & H'). rewrite E. destruct got as [|c got].
  - exists st'. assert (lf = []) as ->.
    { cbn [cop_result] in G. rewrite Nat2Z.id in G. destruct lf as [|c l]; [reflexivity|]. assert (K : exists m, Z.to_nat CHUNK_SIZE = Datatypes.S m) by (exists (pred (Z.to_nat CHUNK_SIZE)); unfold CHUNK_SIZE; lia). destruct K as [m K]. rewrite K in G. discriminate. }
    symmetry in L. apply app_eq_nil in L as [_ ->]. rewrite app_nil_r. auto.
  - rewrite L in Hf. rewrite app_length in Hf. cbn [List.length] in Hf. destruct (IH st' left' (out ++ c :: got) H') as (st2 & E2 & H2); [lia|]. exists st2. rewrite E2, L, app_assoc. auto.
Qed.
Lemma call_ok r st k op lf : fits r k -> (shares k = true -> P st lf) -> (forall rd, op = AssignFile (Some rd) -> full rd) ->
  exists x out r' st' t o, rec_do r st op = (x, out, r', st') /\ does (viewed (if shares k then lf else []) k) op x out t o /\ fits r' (again k op o) /\ x <> Diverge /\
    (shares k = false -> st' = st) /\ (shares k = true -> exists left', lf = t ++ left' /\ P st' left' /\ forall n, op = ReadFile (Some n) -> t = firstn n lf).
Proof.
  intros Fr Hp Ho. set (l := if shares k then lf else []).
  assert (Sw : shows P r st (viewed l k)) by (apply fits_shows; [exact Fr|]; intro Sh; unfold l; rewrite Sh; exact (Hp Sh)).
  destruct (do_ok P P_read (fun st left fuel out => copy_all fuel st left out) P_fuel r st (viewed l k) op Sw Ho) as (x & out & r' & st' & t & o & E & D & S' & Kp & Nd).
  exists x, out, r', st', t, o. split; [exact E|]. split; [exact D|]. split; [exact (shows_fits _ _ _ _ _ _ _ _ _ _ _ Fr E S' Kp)|]. split; [exact Nd|]. split; intro Sh; rewrite Sh in *; unfold l in *.
  - destruct Kp as [[[-> _]|(X & _)] _]; [reflexivity|]. apply (fits_shares r k Fr) in X. congruence.
  - specialize (Hp eq_refl). assert (Lf : exists left', lf = t ++ left' /\ P st' left').
    { destruct Kp as [[[-> Ht]|(_ & l1 & l2 & X1 & X2 & X3)] _].
      - rewrite Ht by (apply (fits_shares r k Fr); exact Sh). exists lf. auto.
      - exists l2. split; [rewrite (P_one _ _ _ Hp X1); exact X2|exact X3]. }
    destruct Lf as (left' & Lf & Hl). exists left'. split; [exact Lf|]. split; [exact Hl|]. intros n ->. apply (fits_shares r k Fr) in Sh. cbn [rec_do] in E. rewrite Sh in E. cbn [cf_read] in E.
    destruct (P_read st lf (Some (Z.of_nat n)) Hp (Nat2Z.is_nonneg n)) as (got & l' & s1 & E1 & E2 & E3 & _). rewrite E1 in E. cbn [cop_result] in E3. rewrite Nat2Z.id in E3. injection E as <- <- _ _. inversion D; subst; congruence.
Qed.
End Calls.
Lemma open_read w gz size names st lf n : ready3 w gz size names st lf -> nonneg n ->
  exists got left' st', stream_read st n = (Ret got, st') /\ lf = got ++ left' /\ got = cop_result (OpRead n) lf /\ ready3 w gz size names st' left'.
Proof.
  intros (Hs & He & Hr & Hp) Hn. destruct (cop_result_prefix (OpRead n) lf) as [left' El]. set (got := cop_result (OpRead n) lf) in *.
  exists got, left', (adv st (List.length got)). split; [|split; [exact El|]; split; [reflexivity|]].
  - unfold stream_read, bounded. rewrite He. destruct n as [z|]; cbn [raw_read]; cbn [nonneg] in Hn.
    + unfold f_read. destruct (Z.ltb_spec z 0) as [L|L]; [lia|]. rewrite Hr. change (firstn (Z.to_nat z) lf) with got. rewrite count_down_none by exact He. reflexivity.
    + unfold f_read_all. rewrite Hr. change lf with got at 1 2. rewrite count_down_none by exact He. reflexivity.
  - split; [exact Hs|]. split; [exact He|]. split; [exact (f_rest_app _ _ _ (eq_trans Hr El))|]. assert (Ln : List.length lf = List.length got + List.length left') by (rewrite El at 1; apply app_length). change (f_pos (s_fh st) + List.length got + List.length left' = size). lia.
Qed.
Lemma open_fuel w gz size names st lf : ready3 w gz size names st lf -> List.length lf < cf_fuel CF_stream st.
Proof. intros (_ & _ & Hr & _). cbn [cf_fuel]. pose proof (rest_fuel st) as Q. unfold rest in Q. rewrite Hr in Q. exact Q. Qed.
Lemma open_one w gz size names st l1 l2 : ready3 w gz size names st l1 -> ready3 w gz size names st l2 -> l1 = l2.
Proof. intros (_ & _ & A & _) (_ & _ & B & _). congruence. Qed.
Lemma stage_call w gz size names r st k op s lf stg : holds w gz size names st s -> in_file s = Some (lf, stg) -> fits r k -> (forall rd, op = AssignFile (Some rd) -> full rd) ->
  exists x out r' st' t o, rec_do r st op = (x, out, r', st') /\ does (viewed (if shares k then lf else []) k) op x out t o /\ fits r' (again k op o) /\ x <> Diverge /\
    (shares k = false -> st' = st) /\ (shares k = true -> exists left', lf = t ++ left' /\ holds w gz size names st' (stg left') /\ forall n, op = ReadFile (Some n) -> t = firstn n lf).
Proof.
  intros H Hi Fr Ho. destruct s as [l after|l|t|]; try discriminate; cbn [in_file] in Hi; injection Hi as <- <-; cbn [holds] in H.
  - destruct H as (next & Ht & Hr). destruct (call_ok (there next) (there_read next) (there_fuel next) (there_one next next) r st k op l Fr (fun _ => Ht) Ho) as (x & out & r' & st' & t & o & E & D & F & N & A & B).
    exists x, out, r', st', t, o. repeat (split; [assumption|]). intro Sh. destruct (B Sh) as (left' & B1 & B2 & B3). exists left'. split; [exact B1|]. split; [|exact B3]. exists next. auto.
  - destruct (call_ok (ready3 w gz size names) (open_read w gz size names) (open_fuel w gz size names) (open_one w gz size names) r st k op l Fr (fun _ => H) Ho) as (x & out & r' & st' & t & o & E & D & F & N & A & B).
    exists x, out, r', st', t, o. repeat (split; [assumption|]). exact B.
Qed.
Lemma own_call r st k op : fits r k -> shares k = false -> (forall rd, op = AssignFile (Some rd) -> full rd) ->
  exists x out r' t o, rec_do r st op = (x, out, r', st) /\ does (viewed [] k) op x out t o /\ fits r' (again k op o) /\ x <> Diverge.
Proof.
  intros Fr Sh Ho. destruct (call_ok (fun _ _ => False) ltac:(contradiction) ltac:(contradiction) ltac:(contradiction) r st k op [] Fr ltac:(congruence) Ho) as (x & out & r' & st' & t & o & E & D & F & N & A & _).
  rewrite Sh in D. rewrite (A Sh) in E. exists x, out, r', t, o. auto.
Qed.

(** ** Histories *)
Definition set_out (w : kind_of_reader) gz size (s : shelf) (t : table) : Prop := Forall2 fits (sh_recs s) (t_recs t) /\ holds w gz size (t_names t) (sh_st s) (t_stage t) /\ Forall plain_value (t_names t).
Lemma fits_kept r : from_archive r -> fits r (kept_of r).
Proof. intros (A & B & C). split; [reflexivity|]. split; [reflexivity|]. split; [exact C|]. cbn. auto. Qed.
Lemma deal_ok w gz size s t op : set_out w gz size s t -> t_stage t <> Lost -> (forall i rd, op = On i (AssignFile (Some rd)) -> full rd) ->
  exists x out s' t', shelf_do s op = (x, out, s') /\ deals w gz size t op (x, out) t' /\ (x = Diverge \/ t_stage t' = Lost \/ set_out w gz size s' t').
Proof.
  intros (F & H & Hpn) Nl Ho. destruct op as [|i op].
  - cbn [shelf_do]. destruct (ahead (t_stage t)) as [text|] eqn:A.
    + destruct (stage_ready _ _ _ _ _ _ _ H A) as (st0 & E & Hr). destruct (look_total w (t_names t) text) as (f & names' & L). destruct (look_ok _ _ _ _ _ _ _ _ Hr Hpn L) as (Hpn' & K). rewrite E. destruct f as [n errs|n r len more|e|].
      * destruct K as (st' & K & Hh). rewrite K. cbn [omap bind]. eexists _, _, _, _. split; [reflexivity|]. split; [eapply G_none; eassumption|]. right; right. split; [cbn; rewrite app_nil_r; exact F|]. split; [exact Hh|exact Hpn'].
      * destruct K as (st' & K & Hh). pose proof (read_from_archive st0 true (shown gz (size - List.length text + n)) r []) as Fa. rewrite K in Fa. specialize (Fa eq_refl). rewrite K. cbn [omap bind]. eexists _, _, _, _. split; [reflexivity|]. split; [eapply G_record; eassumption|]. right; right.
        split; [cbn; apply Forall2_app; [exact F|]; constructor; [|constructor]; apply fits_kept; exact Fa|]. split; [exact Hh|exact Hpn'].
      * destruct (read_record st0 true) as [x st']. cbn [fst] in K. subst x. cbn [omap bind]. eexists _, _, _, _. split; [reflexivity|]. split; [eapply G_exn; eassumption|]. right; left. reflexivity.
      * destruct (read_record st0 true) as [x st']. cbn [fst] in K. subst x. cbn [omap bind]. eexists _, _, _, _. split; [reflexivity|]. split; [eapply G_hang; eassumption|]. left. reflexivity.
    + destruct (t_stage t) as [lf [a|]|lf|tx|] eqn:Es; try discriminate; [|contradiction]. cbn [holds] in H. destruct H as (next & Ht & Hs & e & He & Hp).
      assert (E : read_record (sh_st s) true = (Raise E_short, next)).
      { rewrite (there_next _ _ _ true Ht). unfold read_record. rewrite He. unfold skip_to_eoc. rewrite (skip_loop_there _ _ _ _ (there_self _ _ _ Ht)) by (apply (there_fuel next next [] (there_self _ _ _ Ht))). rewrite He. assert (Z : (e =? 0)%Z = false) by lia. rewrite Z. reflexivity. }
      rewrite E. cbn [omap bind]. eexists _, _, _, _. split; [reflexivity|]. split; [eapply G_short; exact Es|]. right; right. split; [cbn; rewrite app_nil_r; exact F|]. split; [|exact Hpn]. cbn. exists next. split; [eapply there_self; exact Ht|]. split; [exact Hs|]. exists e. auto.
  - cbn [shelf_do]. destruct (nth_error (t_recs t) i) as [k|] eqn:Ni.
    + destruct (nth_forall _ _ _ _ _ F Ni) as (r & Nr & Fr). rewrite Nr. assert (Ho' : forall rd, op = AssignFile (Some rd) -> full rd) by (intros rd ->; exact (Ho i rd eq_refl)).
      destruct (shares k) eqn:Sh.
      * destruct (in_file (t_stage t)) as [[lf stg]|] eqn:If.
        { destruct (stage_call _ _ _ _ r _ k op _ _ _ H If Fr Ho') as (x & out & r' & st' & tk & o & E & D & Fr' & Nd & _ & B). rewrite Sh in D. destruct (B Sh) as (left' & B1 & B2 & B3). rewrite E. eexists _, _, _, _. split; [reflexivity|].
          split; [eapply G_shared; eassumption|]. right; right. split; [apply put_forall; assumption|]. split; [exact B2|exact Hpn]. }
        { destruct (t_stage t) as [lf a|lf|tx|] eqn:Es; try discriminate; [|contradiction]. destruct (rec_do r (sh_st s) op) as [[[x out] r'] st'] eqn:E. eexists _, _, _, (mktab (t_recs t) Lost (t_names t)). split; [reflexivity|]. split; [eapply G_negative; eassumption|]. right; left. reflexivity. }
      * destruct (own_call r (sh_st s) k op Fr Sh Ho') as (x & out & r' & tk & o & E & D & Fr' & Nd). rewrite E. eexists _, _, _, _. split; [reflexivity|]. split; [eapply G_call; eassumption|]. right; right. split; [apply put_forall; assumption|]. split; [exact H|exact Hpn].
    + rewrite (nth_none _ _ _ _ F Ni). eexists _, _, _, _. split; [reflexivity|]. split; [apply G_no_such; exact Ni|]. right; right. split; [exact F|]. split; [exact H|exact Hpn].
Qed.
Lemma follow_ok w gz size ops : forall s t, t_stage t = Lost \/ set_out w gz size s t -> shelf_files_ok ops -> follows w gz size t ops (fst (shelf_run s ops)).
Proof.
  induction ops as [|op ops IH]; intros s t H Hf; [apply Fo_nil|]. destruct H as [L|H]; [apply Fo_lost; exact L|]. assert (Dec : t_stage t = Lost \/ t_stage t <> Lost) by (destruct (t_stage t); auto; right; discriminate). destruct Dec as [L|Nl]; [apply Fo_lost; exact L|].
  inversion Hf as [|? ? F1 F2]; subst. destruct (deal_ok w gz size s t op H Nl F1) as (x & out & s' & t' & E & D & K). cbn [shelf_run]. rewrite E. destruct x as [v|e|].
  - assert (K' : t_stage t' = Lost \/ set_out w gz size s' t') by (destruct K as [K|K]; [discriminate|exact K]). specialize (IH s' t' K' F2). destruct (shelf_run s' ops) as [xs s'']. eapply Fo_cons; [exact D|discriminate|exact IH].
  - assert (K' : t_stage t' = Lost \/ set_out w gz size s' t') by (destruct K as [K|K]; [discriminate|exact K]). specialize (IH s' t' K' F2). destruct (shelf_run s' ops) as [xs s'']. eapply Fo_cons; [exact D|discriminate|exact IH].
  - eapply Fo_hang. exact D.
Qed.

(** ** The theorems *)
(** Every history, on any file, as the table says. *)
Theorem C92_history : forall w gz st pos text names ops, poised w gz st pos text names -> shelf_files_ok ops ->
  follows w gz (pos + List.length text) (mktab [] (Open text) names) ops (fst (shelf_run (mkshelf [] st) ops)).
Proof.
  intros w gz st pos text names ops (Hk & Hw & He & Hp & Hr & Hn) Hf. apply follow_ok; [|exact Hf]. right. split; [constructor|]. split; [|exact Hn]. split; [split; [exact Hk|exact Hw]|]. split; [exact He|]. split; [exact Hr|]. cbn. rewrite Hp. reflexivity.
Qed.

(** *** Lemmas on the table *)
Lemma look_one w names text f1 n1 f2 n2 : Forall plain_value names -> look w names text f1 n1 -> look w names text f2 n2 -> f1 = f2 /\ n1 = n2.
Proof.
  intros Hn L1 L2.
  assert (Q : forall x a1 a2, answers false true 0 text a1 x -> answers false true 0 text a2 x -> a1 = a2).
  { intros x a1 a2 A1 A2. destruct a1 as [k1 e1|k1 r1 l1 m1|e1|], a2 as [k2 e2|k2 r2 l2 m2|e2|]; cbn [answers told] in *; repeat match goal with H : _ /\ _ |- _ => destruct H end; try congruence;
      rewrite A1 in * || idtac; try congruence; repeat match goal with H : fst x = _ |- _ => first [rewrite H in *; clear H|idtac] end; try congruence. 
    all: try (match goal with A : Ret _ = Ret _ |- _ => injection A; intros; subst end; congruence). }
  destruct L1 as [f1 -> A1|f1 n1 -> A1|f1 n1 -> A1]; destruct L2 as [f2 W A2|f2 n2 W A2|f2 n2 W A2]; try discriminate.
  - set (st := mkstream SPlain (mkfile text 0 true) None PWarc). assert (Hrd : ready_on false st 0 text) by (repeat split). split; [|reflexivity]. eapply Q; [exact (warc_answers false st 0 text true f1 Hrd A1)|exact (warc_answers false st 0 text true f2 Hrd A2)].
  - set (st := mkstream SPlain (mkfile text 0 true) None (PArc (mkarc [] names))). assert (Hrd : ready_any false false st 0 text names) by (repeat split; eexists; split; reflexivity).
    destruct (any_answers false false st 0 text true names f1 n1 Hrd Hn A1) as (X1 & _ & a1 & P1 & N1). destruct (any_answers false false st 0 text true names f2 n2 Hrd Hn A2) as (X2 & _ & a2 & P2 & N2). split; [eapply Q; eassumption|]. rewrite P1 in P2. congruence.
  - set (st := mkstream SPlain (mkfile text 0 true) None (PMixed (mkarc [] names))). assert (Hrd : ready_any true false st 0 text names) by (repeat split; eexists; split; reflexivity).
    destruct (any_answers true false st 0 text true names f1 n1 Hrd Hn A1) as (X1 & _ & a1 & P1 & N1). destruct (any_answers true false st 0 text true names f2 n2 Hrd Hn A2) as (X2 & _ & a2 & P2 & N2). split; [eapply Q; eassumption|]. rewrite P1 in P2. congruence.
Qed.
Lemma look_names w names text f n : Forall plain_value names -> look w names text f n -> Forall plain_value n.
Proof.
  intros Hn L. destruct L as [f -> A|f n -> A|f n -> A]; [exact Hn| |].
  - set (st := mkstream SPlain (mkfile text 0 true) None (PArc (mkarc [] names))). assert (Hrd : ready_any false false st 0 text names) by (repeat split; eexists; split; reflexivity). apply (any_answers false false st 0 text true names f n Hrd Hn A).
  - set (st := mkstream SPlain (mkfile text 0 true) None (PMixed (mkarc [] names))). assert (Hrd : ready_any true false st 0 text names) by (repeat split; eexists; split; reflexivity). apply (any_answers true false st 0 text true names f n Hrd Hn A).
Qed.
Lemma does_ends o op x out t o' : does o op x out t o' -> x <> Diverge.
Proof. intro D. inversion D; subst; try discriminate; match goal with F : fetches _ _ _ _ |- _ => inversion F; subst; discriminate end. Qed.
Definition agrees (t : table) (tx : option bytes) : Prop :=
  Forall plain_value (t_names t) /\ ((exists l, t_stage t = Within l tx) \/ (t_stage t = Open [] /\ tx = Some []) \/ (exists x, t_stage t = Open x /\ tx = Some x /\ t_recs t = [])).
Lemma agrees_ahead t tx : agrees t tx -> (forall x, tx = Some x -> ahead (t_stage t) = Some x) /\ (tx = None -> exists l, t_stage t = Within l None).
Proof.
  intros [_ [[l E]|[[E ->]|(x & E & -> & _)]]]; rewrite E; (split; [intros y H|intros Hx]); cbn [ahead]; try discriminate; try exact H.
  - rewrite H. reflexivity.
  - rewrite Hx. eauto.
Qed.
Lemma next_steady w gz size t tx it items x t1 : agrees t tx -> steady w gz size (t_names t) tx (it :: items) -> deals w gz size t Next x t1 ->
  exists tx1, x = (omap VItem (fst it), []) /\ steady w gz size (t_names t1) tx1 items /\ agrees t1 tx1 /\
    (forall o r e, fst it = Ret (o, Some r, e) -> t_recs t1 = t_recs t ++ [kept_of r] /\ t_stage t1 = Within (snd it) tx1) /\ ((forall o r e, fst it <> Ret (o, Some r, e)) -> t_recs t1 = t_recs t).
Proof.
  intros A S D. destruct (agrees_ahead _ _ A) as [Ah As]. destruct A as [Hn A]. inversion S as [|? text n r d more names' ? L Hd S1|? text n errs names' ? L Hg S1|? ? S1]; subst.
  - specialize (Ah _ eq_refl). inversion D as [? text' n' r' len' more' nm' A' L'|? text' n' errs' nm' A' L'|? text' e' nm' A' L'|? text' nm' A' L'|? l' W| | | |]; subst;
      try (rewrite Ah in A'; injection A' as <-; destruct (look_one _ _ _ _ _ _ _ Hn L L') as [Ef En]; try discriminate); [|rewrite W in Ah; discriminate].
    injection Ef as <- <- <- <-. subst nm'. eexists. split; [reflexivity|]. split; [exact S1|]. unfold stage_after. destruct (Z.ltb_spec d 0) as [Z|Z]; [lia|].
    assert (St : (if (d <=? Z.of_nat (List.length more))%Z then Within (firstn (Z.to_nat d) more) (Some (skipn (Z.to_nat d) more)) else Within more None) =
      Within (firstn (Z.to_nat d) more) (if (d <=? Z.of_nat (List.length more))%Z then Some (skipn (Z.to_nat d) more) else None)).
    { destruct (Z.leb_spec d (Z.of_nat (List.length more))) as [M|M]; [reflexivity|]. rewrite firstn_all2 by lia. reflexivity. }
    split; [|split].
    + split; [exact (look_names _ _ _ _ _ Hn L)|]. left. eexists. cbn. exact St.
    + intros o r' e X. injection X as _ <- _. cbn. split; [reflexivity|]. exact St.
    + intro X. contradiction (X _ _ _ eq_refl).
  - specialize (Ah _ eq_refl). inversion D as [? text' n' r' len' more' nm' A' L'|? text' n' errs' nm' A' L'|? text' e' nm' A' L'|? text' nm' A' L'|? l' W| | | |]; subst;
      try (rewrite Ah in A'; injection A' as <-; destruct (look_one _ _ _ _ _ _ _ Hn L L') as [Ef En]; try discriminate); [|rewrite W in Ah; discriminate].
    injection Ef as <- <-. subst nm'. eexists. split; [reflexivity|]. split; [exact S1|]. rewrite Hg. split; [|split; [discriminate|reflexivity]]. split; [exact (look_names _ _ _ _ _ Hn L)|]. right; left. split; reflexivity.
  - destruct (As eq_refl) as [l W]. inversion D as [? text' n' r' len' more' nm' A' L'|? text' n' errs' nm' A' L'|? text' e' nm' A' L'|? text' nm' A' L'|? l' W'| | | |]; subst; try (rewrite W in A'; discriminate).
    eexists. split; [reflexivity|]. split; [exact S1|]. split; [|split; [discriminate|reflexivity]]. split; [exact Hn|]. left. eexists. reflexivity.
Qed.
Lemma call_steady w gz size t tx i op x t1 : agrees t tx -> deals w gz size t (On i op) x t1 -> agrees t1 tx /\ t_names t1 = t_names t /\ fst x <> Diverge /\ List.length (t_recs t1) = List.length (t_recs t).
Proof.
  intros [Hn A] D. inversion D as [| | | | |? ? ? k y out tk o N Sh Do|? ? ? k y out tk o lf stg l' N Sh If Do El _|? ? ? k text ? recs N Sh St|]; subst; cbn [t_names t_recs fst].
  - assert (Nd : omap VCall y <> Diverge) by (pose proof (does_ends _ _ _ _ _ _ Do); destruct y; [discriminate..|contradiction]). rewrite put_length. split; [|auto]. split; [exact Hn|]. cbn. destruct A as [A|[A|(x & A1 & A2 & A3)]]; [left; exact A|right; left; exact A|]. rewrite A3 in N. destruct i; discriminate.
  - assert (Nd : omap VCall y <> Diverge) by (pose proof (does_ends _ _ _ _ _ _ Do); destruct y; [discriminate..|contradiction]). rewrite put_length. split; [|auto]. split; [exact Hn|]. cbn. destruct A as [[l A]|[[A ->]|(x & A1 & A2 & A3)]]; [| |rewrite A3 in N; destruct i; discriminate].
    + rewrite A in If. cbn in If. injection If as -> <-. left. eexists. reflexivity.
    + rewrite A in If. cbn in If. injection If as X <-. symmetry in X. apply app_eq_nil in X as [_ ->]. right; left. auto.
  - destruct A as [[l A]|[[A _]|(x' & A & _)]]; rewrite A in St; discriminate.
  - split; [split; assumption|]. split; [reflexivity|]. split; [discriminate|reflexivity].
Qed.
(** Whatever calls are made in between: the steps of the loop give what they give without
    them. *)
Lemma nth_next ops op : forall i, nth_error (op :: ops) (S i) = Some Next -> nexts (firstn (S i) (op :: ops)) = (if is_next op then 1 else 0) + nexts (firstn i ops).
Proof. intros i _. unfold nexts. cbn [firstn filter]. destruct (is_next op); reflexivity. Qed.
Lemma steady_items w gz size t ops xs : follows w gz size t ops xs -> forall tx items, agrees t tx -> steady w gz size (t_names t) tx items -> nexts ops <= List.length items ->
  List.length xs = List.length ops /\ forall i, nth_error ops i = Some Next -> exists it, nth_error items (nexts (firstn i ops)) = Some it /\ nth_error xs i = Some (omap VItem (fst it), []).
Proof.
  induction 1 as [t|t op x t1 ops xs D Nd F IH|t op out t1 ops D|t ops xs L]; intros tx items A S Hl.
  - split; [reflexivity|]. intros [|i] X; discriminate.
  - destruct op as [|j op].
    + unfold nexts in Hl. cbn [filter is_next List.length] in Hl. destruct items as [|it items]; [cbn in Hl; lia|]. destruct (next_steady _ _ _ _ _ _ _ _ _ A S D) as (tx1 & -> & S1 & A1 & _). destruct (IH tx1 items A1 S1 ltac:(unfold nexts; cbn in Hl; lia)) as [I1 I2].
      split; [cbn; f_equal; exact I1|]. intros [|i] X; [exists it; split; reflexivity|]. destruct (I2 i X) as (it' & Y1 & Y2). exists it'. split; [|exact Y2]. rewrite (nth_next ops Next i X). exact Y1.
    + destruct (call_steady _ _ _ _ _ _ _ _ _ A D) as (A1 & N1 & _ & _). rewrite <- N1 in S. destruct (IH tx items A1 S Hl) as [I1 I2]. split; [cbn; f_equal; exact I1|]. intros [|i] X; [discriminate|]. destruct (I2 i X) as (it' & Y1 & Y2). exists it'. split; [|exact Y2]. rewrite (nth_next ops (On j op) i X). exact Y1.
  - exfalso. destruct op as [|j op].
    + unfold nexts in Hl. cbn [filter is_next List.length] in Hl. destruct items as [|it items]; [cbn in Hl; lia|]. destruct (next_steady _ _ _ _ _ _ _ _ _ A S D) as (tx1 & E & _). inversion S; subst; cbn in E; discriminate.
    + destruct (call_steady _ _ _ _ _ _ _ _ _ A D) as (_ & _ & Nd & _). exact (Nd eq_refl).
  - exfalso. destruct A as [_ [[l A]|[[A _]|(x & A & _)]]]; rewrite A in L; discriminate.
Qed.
Lemma poised_agrees w gz st pos text names : poised w gz st pos text names -> agrees (mktab [] (Open text) names) (Some text).
Proof. intros (_ & _ & _ & _ & _ & Hn). split; [exact Hn|]. right; right. exists text. auto. Qed.
Theorem C92_same_items : forall w gz st pos text names items ops, poised w gz st pos text names -> steady w gz (pos + List.length text) names (Some text) items ->
  shelf_files_ok ops -> nexts ops <= List.length items ->
  let xs := fst (shelf_run (mkshelf [] st) ops) in List.length xs = List.length ops /\
  forall i, nth_error ops i = Some Next -> exists it, nth_error items (nexts (firstn i ops)) = Some it /\ nth_error xs i = Some (omap VItem (fst it), []).
Proof.
  intros w gz st pos text names items ops Hp Hs Hf Hl xs. exact (steady_items _ _ _ _ _ _ (C92_history w gz st pos text names ops Hp Hf) _ _ (poised_agrees _ _ _ _ _ _ Hp) Hs Hl).
Qed.

(** *** Asked for in time *)
Lemma look_nil w names f n : Forall plain_value names -> look w names [] f n -> f = FNone 0 [].
Proof.
  intros Hn L. assert (A : arc_finds names [] (FNone 0 []) names) by (apply (arc_finds_end names []); apply arc_end; constructor).
  assert (L0 : look w names [] (FNone 0 []) names).
  { destruct w; [apply look_warc; [reflexivity|]; apply (warc_end []); [constructor|cbn; lia]|apply look_arc|apply look_mixed]; try reflexivity; apply finds_arc; [reflexivity|exact A|reflexivity|exact A]. }
  destruct (look_one _ _ _ _ _ _ _ Hn L L0) as [E _]. exact E.
Qed.
Definition record_of (it : outcome item * bytes) : option record := match fst it with Ret (_, Some r, _) => Some r | _ => None end.
Lemma steady_over w gz size names tx items : steady w gz size names tx items -> Forall plain_value names -> tx = Some [] \/ tx = None -> Forall (fun it => record_of it = None) items.
Proof.
  induction 1 as [names tx|names text n r d more names' items L Hd S IH|names text n errs names' items L Hg S IH|names items S IH]; intros Hn Ht.
  - constructor.
  - exfalso. destruct Ht as [Ht|Ht]; [|discriminate]. injection Ht as ->. pose proof (look_nil _ _ _ _ Hn L). discriminate.
  - constructor; [reflexivity|]. apply IH; [exact (look_names _ _ _ _ _ Hn L)|auto].
  - constructor; [reflexivity|]. apply IH; [exact Hn|auto].
Qed.
(** the records come first *)
Lemma steady_first w gz size names tx items : steady w gz size names tx items -> Forall plain_value names -> forall k it, nth_error items k = Some it -> record_of it <> None ->
  Forall (fun it => record_of it <> None) (firstn k items).
Proof.
  induction 1 as [names tx|names text n r d more names' items L Hd S IH|names text n errs names' items L Hg S IH|names items S IH]; intros Hn [|k] it N R; try constructor; cbn [nth_error] in N.
  - cbn. discriminate.
  - exact (IH (look_names _ _ _ _ _ Hn L) k it N R).
  - exfalso. apply R. pose proof (steady_over _ _ _ _ _ _ S (look_names _ _ _ _ _ Hn L) (or_introl eq_refl)) as F. rewrite Forall_forall in F. exact (F it (nth_error_In _ _ N)).
  - exfalso. apply R. pose proof (steady_over _ _ _ _ _ _ S (look_names _ _ _ _ _ Hn L) (or_introl eq_refl)) as F. rewrite Forall_forall in F. exact (F it (nth_error_In _ _ N)).
  - exfalso. apply R. pose proof (steady_over _ _ _ _ _ _ S Hn (or_intror eq_refl)) as F. rewrite Forall_forall in F. exact (F it (nth_error_In _ _ N)).
  - exfalso. apply R. pose proof (steady_over _ _ _ _ _ _ S Hn (or_intror eq_refl)) as F. rewrite Forall_forall in F. exact (F it (nth_error_In _ _ N)).
Qed.
(** once a record's content is known, it stays *)
Definition aware (t : table) (k : nat) c : Prop := exists r, nth_error (t_recs t) k = Some r /\ k_known r = Some c.
Lemma aware_step w gz size t op x t' k c : deals w gz size t op x t' -> t_stage t' <> Lost -> aware t k c -> aware t' k c.
Proof.
  intros M Nl (r & N & K). unfold aware.
  assert (G : forall l, aware t k c -> exists r0, nth_error (t_recs t ++ l) k = Some r0 /\ k_known r0 = Some c) by (intros l _; exists r; split; [rewrite nth_error_app1; [exact N|]; apply nth_error_Some; congruence|exact K]).
  assert (P : forall i op0 q left x0 w0 tk o, nth_error (t_recs t) i = Some q -> does (viewed left q) op0 x0 w0 tk o -> exists r0, nth_error (put (t_recs t) i (again q op0 o)) k = Some r0 /\ k_known r0 = Some c).
  { intros i op0 q left x0 w0 tk o H D. destruct (Nat.eq_dec i k) as [->|Ne].
    - rewrite N in H. injection H as <-. eexists. split; [eapply put_same; exact N|]. cbn. eapply does_known; [exact D|exact K].
    - exists r. split; [rewrite put_other by exact Ne; exact N|exact K]. }
  inversion M; subst; cbn [t_recs t_stage] in *; try (exists r; split; assumption); [apply G; exists r; auto|eapply P; eassumption|eapply P; eassumption|contradiction].
Qed.
Lemma aware_ask w gz size t x t' k c : deals w gz size t (On k AskContent) x t' -> t_stage t' <> Lost -> aware t k c -> x = (Ret (VCall (VContent c)), []).
Proof.
  intros M Nl (r & N & K). inversion M; subst; try congruence; try contradiction.
  all: match goal with X : nth_error _ _ = Some ?q, D : does (viewed _ ?q) _ _ _ _ _ |- _ => rewrite N in X; injection X as <-; inversion D; subst end;
    match goal with F : fetches _ _ _ _ |- _ => destruct (fetches_known _ _ _ _ _ F K) as [-> _]; reflexivity end.
Qed.
Lemma agrees_found t tx : agrees t tx -> t_stage t <> Lost.
Proof. intros [_ [[l E]|[[E _]|(x & E & _)]]]; rewrite E; discriminate. Qed.
(** the first calls of a history, and the rest *)
Lemma steady_split w gz size ops2 ops1 : forall t xs tx items, follows w gz size t (ops1 ++ ops2) xs -> agrees t tx -> steady w gz size (t_names t) tx items -> nexts (ops1 ++ ops2) <= List.length items ->
  exists xs1 xs2 t1 tx1, xs = xs1 ++ xs2 /\ List.length xs1 = List.length ops1 /\ follows w gz size t1 ops2 xs2 /\ agrees t1 tx1 /\ steady w gz size (t_names t1) tx1 (skipn (nexts ops1) items) /\
    (Forall (fun it => record_of it <> None) (firstn (nexts ops1) items) -> List.length (t_recs t1) = List.length (t_recs t) + nexts ops1) /\ (forall k c, aware t k c -> aware t1 k c).
Proof.
  induction ops1 as [|op ops1 IH]; intros t xs tx items F A S Hl.
  - exists [], xs, t, tx. repeat (split; [assumption || reflexivity|]). split; [intros _; cbn; lia|auto].
  - pose proof (agrees_found _ _ A) as Nl. cbn [app] in F. inversion F as [|? ? x t1 ? xs' D Nd F1|? ? out t1 ? D|? ? ? L]; subst.
    + destruct op as [|j op].
      * unfold nexts in Hl |- *. cbn [app filter is_next List.length] in Hl |- *. destruct items as [|it items]; [cbn in Hl; lia|]. destruct (next_steady _ _ _ _ _ _ _ _ _ A S D) as (tx1 & -> & S1 & A1 & R1 & R2). destruct (IH t1 xs' tx1 items F1 A1 S1 ltac:(unfold nexts; cbn in Hl; lia)) as (xs1 & xs2 & t2 & tx2 & -> & I1 & I2 & I3 & I4 & I5 & I6).
        eexists (_ :: xs1), xs2, t2, tx2. split; [reflexivity|]. split; [cbn; f_equal; exact I1|]. split; [exact I2|]. split; [exact I3|]. split; [exact I4|]. split.
        -- intro Fa. cbn [firstn] in Fa. inversion Fa as [|? ? Fa1 Fa2]; subst. etransitivity; [exact (I5 Fa2)|]. unfold record_of in Fa1. destruct it as [[[[o [r|]] e]|e|] p] eqn:Ei; try (exfalso; apply Fa1; reflexivity). destruct (R1 _ _ _ eq_refl) as [R _]. rewrite R, app_length. unfold nexts. cbn. lia.
        -- intros k c Aw. apply I6. eapply aware_step; [exact D|exact (agrees_found _ _ A1)|exact Aw].
      * destruct (call_steady _ _ _ _ _ _ _ _ _ A D) as (A1 & N1 & _ & Ln). rewrite <- N1 in S. destruct (IH t1 xs' tx items F1 A1 S Hl) as (xs1 & xs2 & t2 & tx2 & -> & I1 & I2 & I3 & I4 & I5 & I6).
        eexists (_ :: xs1), xs2, t2, tx2. split; [reflexivity|]. split; [cbn; f_equal; exact I1|]. split; [exact I2|]. split; [exact I3|]. split; [exact I4|]. split.
        -- intro Fa. rewrite <- Ln. exact (I5 Fa).
        -- intros k c Aw. apply I6. eapply aware_step; [exact D|exact (agrees_found _ _ A1)|exact Aw].
    + exfalso. destruct op as [|j op].
      * unfold nexts in Hl. cbn [app filter is_next List.length] in Hl. destruct items as [|it items]; [cbn in Hl; lia|]. destruct (next_steady _ _ _ _ _ _ _ _ _ A S D) as (tx1 & E & _). inversion S; subst; cbn in E; discriminate.
      * destruct (call_steady _ _ _ _ _ _ _ _ _ A D) as (_ & _ & Nd & _). exact (Nd eq_refl).
    + contradiction.
Qed.
(** the record that has just been read, through calls that only concern headers *)
Definition rests (t : table) (k : nat) (c : rclass) (hs : list header) (body : bytes) (tx : option bytes) : Prop :=
  nth_error (t_recs t) k = Some (mkk c hs None (Some (Shared, false))) /\ t_stage t = Within body tx.
Lemma rests_step w gz size t op x t' k c hs body tx : deals w gz size t op x t' -> header_call op -> rests t k c hs body tx -> rests t' k c (headers_after hs (calls_on k [op])) body tx.
Proof.
  intros M Hc [N L]. unfold rests. unfold calls_on. cbn [flat_map]. inversion M; subst; try contradiction; cbn [t_recs t_stage]; cbn in Hc.
  - destruct (Nat.eqb_spec i k) as [->|Ne]; [rewrite N in H; injection H as <-; discriminate|]. rewrite put_other by exact Ne. auto.
  - assert (T : taken = []) by (destruct op0; try contradiction; match goal with D : does _ _ _ _ _ _ |- _ => inversion D; reflexivity end). subst taken. rewrite L in H1. cbn in H1. injection H1 as El <-. cbn [app] in El. subst left'. split; [|reflexivity].
    destruct (Nat.eqb_spec i k) as [->|Ne]; [|rewrite put_other by exact Ne; exact N]. rewrite N in H. injection H as <-. rewrite (put_same _ _ _ _ N). destruct op0; try contradiction; match goal with D : does _ _ _ _ _ _ |- _ => inversion D; subst; reflexivity end.
  - rewrite L in H1. discriminate.
  - destruct (Nat.eqb_spec i k) as [->|Ne]; [congruence|]. auto.
Qed.
Lemma rests_ask w gz size t x t' k c hs body tx : deals w gz size t (On k AskContent) x t' -> rests t k c hs body tx ->
  let z := (type_header (mkobj c hs None None), Some body) in x = (Ret (VCall (VContent z)), []) /\ aware t' k z.
Proof.
  intros M [N L] z. inversion M; subst; try congruence.
  all: match goal with X : nth_error _ _ = Some ?q |- _ => rewrite N in X; injection X as <- end; try discriminate.
  rewrite L in H3. cbn in H3. injection H3 as Eb <-. rewrite <- Eb in *. clear Eb.
  match goal with D : does _ _ _ _ _ _ |- _ => inversion D; subst end. match goal with F : fetches _ _ _ _ |- _ => inversion F; subst end; cbn in *; try discriminate.
  match goal with X : Some _ = Some _ |- _ => injection X as X1 X2 end. subst z. rewrite X1. split; [reflexivity|]. eexists. split; [eapply put_same; exact N|]. reflexivity.
Qed.
Lemma rests_split w gz size ops2 ops1 k c body tx : Forall header_call ops1 -> forall t xs items hs, follows w gz size t (ops1 ++ ops2) xs -> agrees t tx -> steady w gz size (t_names t) tx items -> nexts (ops1 ++ ops2) <= List.length items ->
  rests t k c hs body tx ->
  exists xs1 xs2 t1, xs = xs1 ++ xs2 /\ List.length xs1 = List.length ops1 /\ follows w gz size t1 ops2 xs2 /\ agrees t1 tx /\ steady w gz size (t_names t1) tx items /\ rests t1 k c (headers_after hs (calls_on k ops1)) body tx.
Proof.
  induction 1 as [|op ops1 Hc Hcs IH]; intros t xs items hs F A S Hl R.
  - exists [], xs, t. repeat (split; [assumption || reflexivity|]). exact R.
  - pose proof (agrees_found _ _ A) as Nl. destruct op as [|j op]; [contradiction|]. cbn [app] in F. inversion F as [|? ? x t1 ? xs' D Nd F1|? ? out t1 ? D|? ? ? L]; subst; [| |contradiction].
    + destruct (call_steady _ _ _ _ _ _ _ _ _ A D) as (A1 & N1 & _ & Ln). rewrite <- N1 in S. destruct (IH t1 xs' items _ F1 A1 S Hl (rests_step _ _ _ _ _ _ _ _ _ _ _ _ D Hc R)) as (xs1 & xs2 & t2 & -> & I1 & I2 & I3 & I4 & I5).
      eexists (_ :: xs1), xs2, t2. split; [reflexivity|]. split; [cbn; f_equal; exact I1|]. split; [exact I2|]. split; [exact I3|]. split; [exact I4|]. rewrite <- headers_after_app in I5. unfold calls_on in *. cbn [flat_map] in *. rewrite app_nil_r in I5. exact I5.
    + exfalso. destruct (call_steady _ _ _ _ _ _ _ _ _ A D) as (_ & _ & Nd & _). exact (Nd eq_refl).
Qed.
Lemma nexts_app a b : nexts (a ++ b) = nexts a + nexts b.
Proof. unfold nexts. rewrite filter_app, app_length. reflexivity. Qed.
Lemma nth_skipn {A} (l : list A) k x : nth_error l k = Some x -> exists t, skipn k l = x :: t.
Proof. revert k. induction l as [|y l IH]; intros [|k] N; try discriminate; [injection N as ->; eexists; reflexivity|]. exact (IH k N). Qed.
Lemma aware_answers w gz size k c ops : forall t xs tx items, follows w gz size t ops xs -> agrees t tx -> steady w gz size (t_names t) tx items -> nexts ops <= List.length items -> aware t k c ->
  forall i, nth_error ops i = Some (On k AskContent) -> nth_error xs i = Some (Ret (VCall (VContent c)), []).
Proof.
  intros t xs tx items F A S Hl Aw i N. destruct (nth_error_split _ _ N) as (o1 & o2 & -> & <-). destruct (steady_split _ _ _ _ _ _ _ _ _ F A S Hl) as (xs1 & xs2 & t1 & tx1 & -> & I1 & I2 & I3 & I4 & _ & I6).
  pose proof (agrees_found _ _ I3) as Nl. rewrite <- I1, nth_error_app2 by lia. rewrite Nat.sub_diag. inversion I2 as [|? ? x t2 ? xs' D Nd F1|? ? out t2 ? D|? ? ? L]; subst; [| |contradiction].
  - cbn. f_equal. destruct (call_steady _ _ _ _ _ _ _ _ _ I3 D) as (A1 & _). eapply aware_ask; [exact D|exact (agrees_found _ _ A1)|exact (I6 _ _ Aw)].
  - exfalso. destruct (call_steady _ _ _ _ _ _ _ _ _ I3 D) as (_ & _ & Nd & _). exact (Nd eq_refl).
Qed.
(** A record whose content is asked for before the next one is read has the payload its
    length declares (all there is of it, when the file is cut short), and keeps it for ever,
    however far one reads on and whatever one does with the records. *)
Theorem C92_asked_in_time : forall w gz st pos text names items before mid after off r errs body, poised w gz st pos text names -> steady w gz (pos + List.length text) names (Some text) items ->
  let k := nexts before in let ops := before ++ [Next] ++ mid ++ [On k AskContent] ++ after in
  shelf_files_ok ops -> nexts ops <= List.length items -> Forall header_call mid -> nth_error items k = Some (Ret (off, Some r, errs), body) ->
  let answer := (Ret (VCall (VContent (type_header (mkobj (r_class r) (headers_after (r_headers r) (calls_on k mid)) None None), Some body))), []) in
  exists x1 x2 x3 s, shelf_run (mkshelf [] st) ops = (x1 ++ x2 ++ [answer] ++ x3, s) /\
    List.length x1 = List.length before /\ List.length x2 = S (List.length mid) /\
    forall i, nth_error after i = Some (On k AskContent) -> nth_error x3 i = Some answer.
Proof.
  intros w gz st pos text names items before mid after off r errs body Hp Hs k ops Hf Hl Hm N answer. pose proof (C92_history w gz st pos text names ops Hp Hf) as H. destruct (shelf_run (mkshelf [] st) ops) as [xs s]. cbn [fst] in H. unfold ops in *.
  pose proof (poised_agrees _ _ _ _ _ _ Hp) as A0. destruct (steady_split _ _ _ _ _ _ _ _ _ H A0 Hs Hl) as (x1 & y & t1 & tx1 & -> & L1 & F1 & A1 & S1 & C1 & _).
  assert (Hn : Forall plain_value names) by apply Hp. specialize (C1 (steady_first _ _ _ _ _ _ Hs Hn _ _ N ltac:(discriminate))). cbn [t_recs List.length Nat.add] in C1. fold k in C1, S1. destruct (nth_skipn _ _ _ N) as [items' Es]. rewrite Es in S1.
  assert (Hl' : nexts (mid ++ [On k AskContent] ++ after) <= List.length items').
  { apply (f_equal (@List.length _)) in Es. rewrite skipn_length in Es. cbn [List.length] in Es. rewrite nexts_app in Hl. fold k in Hl. assert (Q : nexts ([Next] ++ mid ++ [On k AskContent] ++ after) = S (nexts (mid ++ [On k AskContent] ++ after))) by reflexivity. rewrite Q in Hl. lia. }
  cbn [app] in F1. inversion F1 as [|? ? x t2 ? y' D Nd F2|? ? out t2 ? D|? ? ? L]; subst; [| |contradiction (agrees_found _ _ A1 L)].
  2: { exfalso. destruct (next_steady _ _ _ _ _ _ _ _ _ A1 S1 D) as (tx2 & E & _). discriminate. }
  destruct (next_steady _ _ _ _ _ _ _ _ _ A1 S1 D) as (tx2 & -> & S2 & A2 & R2 & _). destruct (R2 _ _ _ eq_refl) as [R3 R4]. cbn [snd] in R4.
  assert (Re : rests t2 k (r_class r) (r_headers r) body tx2) by (split; [rewrite R3, nth_error_app2 by lia; replace (k - List.length (t_recs t1)) with 0 by lia; reflexivity|exact R4]).
  destruct (rests_split w gz _ ([On k AskContent] ++ after) mid k (r_class r) body tx2 Hm _ _ _ _ F2 A2 S2 Hl' Re) as (xm & y2 & t3 & -> & L3 & F3 & A3 & S3 & Re3).
  cbn [app] in F3. inversion F3 as [|? ? x t4 ? x3 D4 Nd4 F4|? ? out t4 ? D4|? ? ? L]; subst; [| |contradiction (agrees_found _ _ A3 L)].
  2: { exfalso. destruct (call_steady _ _ _ _ _ _ _ _ _ A3 D4) as (_ & _ & X & _). exact (X eq_refl). }
  destruct (rests_ask _ _ _ _ _ _ _ _ _ _ _ D4 Re3) as [-> Aw]. destruct (call_steady _ _ _ _ _ _ _ _ _ A3 D4) as (A4 & N4 & _ & _). rewrite <- N4 in S3.
  eexists x1, (_ :: xm), x3, s. split; [reflexivity|]. split; [exact L1|]. split; [cbn; f_equal; exact L3|].
  intros i Hi. eapply aware_answers; [exact F4|exact A4|exact S3| |exact Aw|exact Hi].
  rewrite nexts_app in Hl'. assert (Q : nexts ([On k AskContent] ++ after) = nexts after) by reflexivity. rewrite Q in Hl'. lia.
Qed.

(** *** A record whose length is not known *)
(** The content of such a record is all the rest of the file, if it is asked for: then no
    record is left.  (If it is not, the next record is looked for behind the head, C78.) *)
Theorem C92_no_length : forall w gz st pos text names n r more names', poised w gz st pos text names -> look w names text (FRec n r None more) names' ->
  fst (shelf_run (mkshelf [] st) [Next; On 0 AskContent; Next]) =
    [(Ret (VItem (shown gz (pos + n), Some r, [])), []);
     (Ret (VCall (VContent (type_header (mkobj (r_class r) (r_headers r) None None), Some more))), []);
     (Ret (VItem (shown gz (pos + List.length text), None, [])), [])].
Proof.
  intros w gz st pos text names n r more names' Hp L. assert (Hf : shelf_files_ok [Next; On 0 AskContent; Next]) by (repeat constructor; discriminate).
  pose proof (C92_history w gz st pos text names _ Hp Hf) as H. remember (fst (shelf_run (mkshelf [] st) [Next; On 0 AskContent; Next])) as xs eqn:Ex. clear Ex. assert (Hn : Forall plain_value names) by apply Hp. pose proof (look_names _ _ _ _ _ Hn L) as Hn'.
  assert (D1 : forall x t1, deals w gz (pos + List.length text) (mktab [] (Open text) names) Next x t1 -> x = (Ret (VItem (shown gz (pos + n), Some r, [])), []) /\ t1 = mktab [kept_of r] (Open more) names').
  { intros x t1 D. inversion D as [? text' n' r' len' more' nm' A' L'|? text' n' errs' nm' A' L'|? text' e' nm' A' L'|? text' nm' A' L'|? l' W'| | | |]; subst; cbn in *; try discriminate; injection A' as <-; destruct (look_one _ _ _ _ _ _ _ Hn L L') as [Ef En]; try discriminate.
    injection Ef as <- <- <- <-. subst nm'. replace (pos + List.length text - List.length text + n) with (pos + n) by lia. auto. }
  assert (D2 : forall x t1, deals w gz (pos + List.length text) (mktab [kept_of r] (Open more) names') (On 0 AskContent) x t1 -> x = (Ret (VCall (VContent (type_header (mkobj (r_class r) (r_headers r) None None), Some more))), []) /\ t_stage t1 = Open [] /\ t_names t1 = names').
  { intros x t1 D. inversion D as [| | | | |? ? ? k y out tk o N Sh Do|? ? ? k y out tk o lf stg l' N Sh If Do El _|? ? ? k tx ? recs N Sh St|? ? ? N]; subst x t1; cbn in *; try discriminate; injection N as <-; try discriminate.
    injection If as <- <-. inversion Do; subst. match goal with F : fetches _ _ _ _ |- _ => inversion F; subst end; cbn in *; try discriminate.
    match goal with X : Some _ = Some _ |- _ => injection X as X1 X2 end. assert (El : l' = []) by (rewrite <- (app_nil_r tk) in X1 at 2; apply app_inv_head in X1; exact X1). rewrite El, app_nil_r. repeat split; reflexivity. }
  assert (D3 : forall t0 x t1, t_stage t0 = Open [] -> t_names t0 = names' -> deals w gz (pos + List.length text) t0 Next x t1 -> x = (Ret (VItem (shown gz (pos + List.length text), None, [])), []) /\ t_stage t1 <> Lost).
  { intros t0 x t1 S0 N0 D. inversion D as [? text' n' r' len' more' nm' A' L'|? text' n' errs' nm' A' L'|? text' e' nm' A' L'|? text' nm' A' L'|? l' W'| | | |]; subst x t1 t; try (rewrite S0 in A'; injection A' as <-); try (rewrite S0 in W'; discriminate); rewrite N0 in *; pose proof (look_nil _ _ _ _ Hn' L') as Q; try discriminate.
    injection Q as -> ->. cbn [List.length]. rewrite Nat.sub_0_r, Nat.add_0_r. split; [reflexivity|discriminate]. }
  inversion H as [|? ? x1 t1 ? xs1 M1 Nd1 F1|? ? out1 t1 ? M1|? ? ? L1]; subst; [|destruct (D1 _ _ M1); discriminate|discriminate]. destruct (D1 _ _ M1) as [-> ->].
  inversion F1 as [|? ? x2 t2 ? xs2 M2 Nd2 F2|? ? out2 t2 ? M2|? ? ? L2]; subst; [|destruct (D2 _ _ M2); discriminate|discriminate]. destruct (D2 _ _ M2) as (-> & S2 & N2).
  inversion F2 as [|? ? x3 t3 ? xs3 M3 Nd3 F3|? ? out3 t3 ? M3|? ? ? L3]; subst; [|destruct (D3 _ _ _ S2 eq_refl M3); discriminate|congruence].
  destruct (D3 _ _ _ S2 eq_refl M3) as [-> Nl]. f_equal. f_equal. f_equal. inversion F3; subst; [reflexivity|contradiction].
Qed.

(** ** Concrete cases *)
(** the items of a file, computed (a tool for the cases) *)
Definition stream_over (w : kind_of_reader) (gz : bool) (names : list bytes) (text : bytes) : stream :=
  mkstream (if gz then SGzipRecord else SPlain) (mkfile text 0 true) None (match w with ForWarc => PWarc | ForArc => PArc (mkarc [] names) | ForMixed => PMixed (mkarc [] names) end).
Lemma poised_over w gz names text : Forall plain_value names -> poised w gz (stream_over w gz names text) 0 text names.
Proof. intro Hn. split; [destruct gz; reflexivity|]. split; [destruct w; cbn; eauto|]. repeat (split; [reflexivity|]). exact Hn. Qed.
Definition names_in (w : kind_of_reader) (names : list bytes) (st : stream) : list bytes := match w, s_parser st with ForWarc, _ => names | _, (PArc a | PMixed a) => a_headers a | _, _ => names end.
Lemma look_read w names text : Forall plain_value names ->
  match read_record (stream_over w false names text) true with
  | (Ret (Some n, Some r, []), st') => look w names text (FRec n r (s_eoc st') (f_rest (s_fh st'))) (names_in w names st')
  | (Ret (Some n, None, errs), st') => look w names text (FNone n errs) (names_in w names st')
  | _ => True
  end.
Proof.
  intro Hn. destruct (look_total w names text) as (f & names' & L).
  assert (A : answers false true 0 text f (read_record (stream_over w false names text) true) /\ names_in w names (snd (read_record (stream_over w false names text) true)) = names').
  { pose proof L as L'. destruct L' as [f -> A|f n -> A|f n -> A].
    - assert (Hrd : ready_on false (stream_over ForWarc false names text) 0 text) by (repeat split). split; [exact (warc_answers false _ 0 text true f Hrd A)|reflexivity].
    - assert (Hrd : ready_any false false (stream_over ForArc false names text) 0 text names) by (repeat split; eexists; split; reflexivity). destruct (any_answers false false _ 0 text true names f n Hrd Hn A) as (X1 & _ & a1 & P1 & N1). split; [exact X1|]. unfold names_in. rewrite P1. exact N1.
    - assert (Hrd : ready_any true false (stream_over ForMixed false names text) 0 text names) by (repeat split; eexists; split; reflexivity). destruct (any_answers true false _ 0 text true names f n Hrd Hn A) as (X1 & _ & a1 & P1 & N1). split; [exact X1|]. unfold names_in. rewrite P1. exact N1. }
  destruct A as [A En]. destruct (read_record (stream_over w false names text) true) as [x st']. cbn [snd] in En. subst names'.
  destruct f as [n errs|n r len more|e|]; cbn [answers told fst snd Nat.add] in A; [subst x; exact L| |subst x; exact I..].
  destruct A as (-> & -> & -> & _). exact L.
Qed.
Fixpoint walk (w : kind_of_reader) (gz : bool) (size fuel : nat) (names : list bytes) (tx : option bytes) : list (outcome item * bytes) :=
  match fuel with
  | O => []
  | S fuel =>
      match tx with
      | None => (Raise E_short, []) :: walk w gz size fuel names None
      | Some text =>
          match read_record (stream_over w false names text) true with
          | (Ret (Some n, Some r, []), st') =>
              match s_eoc st' with
              | Some d => if (0 <=? d)%Z
                  then let more := f_rest (s_fh st') in
                       (Ret (shown gz (size - List.length text + n), Some r, []), firstn (Z.to_nat d) more) ::
                       walk w gz size fuel (names_in w names st') (if (d <=? Z.of_nat (List.length more))%Z then Some (skipn (Z.to_nat d) more) else None)
                  else []
              | None => []
              end
          | (Ret (Some n, None, errs), st') =>
              if gave_up errs then [] else (Ret (shown gz (size - List.length text + n), None, errs), []) :: walk w gz size fuel (names_in w names st') (Some [])
          | _ => []
          end
      end
  end.
Lemma walk_steady w gz size fuel : forall names tx, Forall plain_value names -> steady w gz size names tx (walk w gz size fuel names tx).
Proof.
  induction fuel as [|fuel IH]; intros names tx Hn; [apply St_nil|]. cbn [walk]. destruct tx as [text|]; [|apply St_short, IH, Hn].
  pose proof (look_read w names text Hn) as L. destruct (read_record (stream_over w false names text) true) as [[[[[n|] [r|]] [|e errs]]|e|] st']; try apply St_nil.
  - destruct (s_eoc st') as [d|]; [|apply St_nil]. destruct (Z.leb_spec 0 d) as [Z|Z]; [|apply St_nil]. eapply St_record; [exact L|exact Z|]. apply IH. exact (look_names _ _ _ _ _ Hn L).
  - cbn [gave_up last]. eapply St_end; [exact L|reflexivity|]. apply IH. exact (look_names _ _ _ _ _ Hn L).
  - destruct (gave_up (e :: errs)) eqn:G; [apply St_nil|]. eapply St_end; [exact L|exact G|]. apply IH. exact (look_names _ _ _ _ _ Hn L).
Qed.
(** an archive with ARC records, a WARC record, and a WARC record that is cut short *)
Definition c92_text : bytes :=
  arc_any_text ++ [LF] ++ B "http://h.org/ 20200102030405 5" ++ [LF] ++ B "hello" ++ [LF] ++
  B "WARC/1.0" ++ CRLF ++ B "Content-Type: text/b" ++ CRLF ++ B "Content-Length: 3" ++ CRLF ++ CRLF ++ B "abc" ++ CRLF ++ CRLF ++
  B "WARC/1.0" ++ CRLF ++ B "Content-Type: text/c" ++ CRLF ++ B "Content-Length: 9" ++ CRLF ++ CRLF ++ B "cut".
Definition c92_stream (gz : bool) := stream_over ForMixed gz [] c92_text.
Definition c92_items (gz : bool) := walk ForMixed gz (List.length c92_text) 7 [] (Some c92_text).
Example C92_case : forall gz, poised ForMixed gz (c92_stream gz) 0 c92_text [] /\ steady ForMixed gz (0 + List.length c92_text) [] (Some c92_text) (c92_items gz).
Proof. intro gz. split; [apply poised_over; constructor|apply walk_steady; constructor]. Qed.
Example C92_items_case : map (fun it => (match record_of it with Some r => Some (match r_class r with RWarc _ => "warc" | RArc => "arc" | _ => "filedesc" end%string) | None => None end, snd it)) (c92_items false) =
  [(Some "filedesc", [LF; LF]); (Some "arc", B "abc"); (Some "arc", B "hello"); (Some "warc", B "abc"); (Some "warc", B "cut"); (None, []); (None, [])]%string.
Proof. vm_compute. reflexivity. Qed.
(** asked in time, and again after the end has raised; and too late *)
Example C92_in_time_case : contents (fst (shelf_run (mkshelf [] (c92_stream true)) [Next; Next; On 1 AskContent; Next; Next; On 3 AskContent; Next; On 4 AskContent; On 2 AskContent; Next; On 1 AskContent; On 4 AskContent; Next])) =
  [Ret (VCall (VContent (None, Some (B "abc")))); c88_says "text/b" "abc"; c88_says "text/c" "cut"; Ret (VCall (VContent (None, Some []))); Raise E_short; Ret (VCall (VContent (None, Some (B "abc")))); c88_says "text/c" "cut"; Raise E_short].
Proof. vm_compute. reflexivity. Qed.
(** an ARC record whose length is no number: whether its content is asked for decides
    whether the record behind it is read *)
Definition c92_open_text : bytes := B "http://h.org/ 20200102030405 x" ++ [LF] ++ B "http://h.org/ 20200102030405 3" ++ [LF] ++ B "abc".
Definition c92_open_stream := stream_over ForArc false three_names c92_open_text.
Example C92_open_case : exists r, poised ForArc false c92_open_stream 0 c92_open_text three_names /\
  look ForArc three_names c92_open_text (FRec 0 r None (B "http://h.org/ 20200102030405 3" ++ [LF] ++ B "abc")) three_names.
Proof.
  assert (Hn : Forall plain_value three_names) by (repeat (apply Forall_cons; [apply PropsArc.plain_valueb_sound; reflexivity|]); apply Forall_nil).
  pose proof (look_read ForArc three_names c92_open_text Hn) as L.
  destruct (read_record (stream_over ForArc false three_names c92_open_text) true) as [x st'] eqn:E. vm_compute in E. injection E as <- <-. eexists. split; [apply poised_over; exact Hn|]. exact L.
Qed.
Definition how_many (xs : list (outcome sval * bytes)) : nat := List.length (filter (fun x => match x with (Ret (VItem (_, Some _, _)), _) => true | _ => false end) xs).
Example C92_open_difference : how_many (fst (shelf_run (mkshelf [] c92_open_stream) [Next; Next; On 0 AskContent; Next])) = 2 /\ how_many (fst (shelf_run (mkshelf [] c92_open_stream) [Next; On 0 AskContent; Next; Next])) = 1.
Proof. vm_compute. auto. Qed.
