(** Start lines, numerals and framing headers. *)
From Verif Require Import RegexFacts.
From Verif Require Export HttpHead.
From Coq Require Import String List Lia ZArith.
Open Scope list_scope.

(** ** numerals *)
Definition base_value (base : Z) (s : bytes) : Z :=
  fold_left (fun z c => z * base + match digit_val base c with Some d => d | None => 0 end)%Z s 0%Z.
Lemma digit_val_char base c d : digit_val base c = Some d -> is_space c = false /\ c <> 95%N /\ c <> 43%N /\ c <> 45%N.
Proof. unfold digit_val, is_digit, is_lower, is_upper, is_space. intro H. repeat match type of H with context [if ?b then _ else _] => destruct b eqn:?; try discriminate end; lia. Qed.
Lemma int_prefix_digits base s tail : (forall c, In c s -> exists d, digit_val base c = Some d) -> (base <= 16)%Z -> forallb is_space tail = true ->
  int_prefix base (s ++ tail) = s ++ tail.
Proof.
  intros H Hb Ht. destruct s as [|c [|x s]].
  - destruct tail as [|c t]; [reflexivity|]. cbn [app forallb] in *. apply Bool.andb_true_iff in Ht as [Ht _].
    unfold int_prefix. destruct c as [|p]; [reflexivity|]. do 6 (destruct p as [p|p|]; try reflexivity). discriminate.
  - destruct tail as [|y t].
    + unfold int_prefix. cbn [app]. destruct c as [|p]; [reflexivity|]. do 6 (destruct p as [p|p|]; try reflexivity).
    + cbn [app forallb] in *. apply Bool.andb_true_iff in Ht as [Ht _].
      unfold int_prefix. destruct c as [|p]; [reflexivity|]. do 6 (destruct p as [p|p|]; try reflexivity).
      replace (N.eqb y 120 || N.eqb y 88) with false by (unfold is_space in Ht; lia). rewrite Bool.andb_false_r. reflexivity.
  - cbn [app]. destruct (H x) as [d Hd]; [cbn; auto|].
    unfold int_prefix. destruct c as [|p]; [reflexivity|]. do 6 (destruct p as [p|p|]; try reflexivity).
    replace (N.eqb x 120 || N.eqb x 88) with false; [rewrite Bool.andb_false_r; reflexivity|].
    symmetry. apply Bool.not_true_iff_false. intro E. apply Bool.orb_true_iff in E as [E|E]; apply N.eqb_eq in E; subst x; revert Hd; unfold digit_val; cbn;
      (destruct (Z.ltb_spec 33 base); [lia|discriminate]).
Qed.
Lemma int_digits_space base acc tail : forallb is_space tail = true -> int_digits base acc false tail = Some (acc, tail).
Proof.
  destruct tail as [|c t]; [reflexivity|]. cbn [forallb int_digits]. intro H. apply Bool.andb_true_iff in H as [H _].
  replace (N.eqb c 95) with false by (unfold is_space in H; lia).
  replace (digit_val base c) with (@None Z); [reflexivity|]. unfold digit_val.
  replace (is_digit c) with false by (unfold is_digit, is_space in *; lia). replace (is_lower c) with false by (unfold is_lower, is_space in *; lia).
  replace (is_upper c) with false by (unfold is_upper, is_space in *; lia). reflexivity.
Qed.
Lemma py_int_digits base s tail : s <> [] -> (forall c, In c s -> exists d, digit_val base c = Some d) -> (base <= 16)%Z -> forallb is_space tail = true ->
  py_int base (s ++ tail) = Some (base_value base s).
Proof.
  intros Hn H Hb Ht. unfold py_int. destruct s as [|c s]; [contradiction|]. destruct (H c (or_introl eq_refl)) as [d Hd]. destruct (digit_val_char _ _ _ Hd) as (C1 & C2 & C3 & C4).
  replace (lstrip ((c :: s) ++ tail)) with ((c :: s) ++ tail) by (unfold lstrip; cbn [app drop_while]; rewrite C1; reflexivity).
  cbn [app]. rewrite sign_match by assumption. change (c :: s ++ tail) with ((c :: s) ++ tail). rewrite int_prefix_digits by assumption.
  unfold int_unsigned. cbn [app]. rewrite Hd. change (c :: s ++ tail) with ((c :: s) ++ tail). rewrite int_digits_app.
  - rewrite int_digits_space by exact Ht. unfold lstrip. rewrite drop_while_all by exact Ht. reflexivity.
  - intros x Hx. destruct (H x Hx) as [e He]. split; [apply (digit_val_char _ _ _ He)|eauto].
Qed.
Lemma dec_digit c : is_digit c = true -> digit_val 10 c = Some (Z.of_N c - 48)%Z.
Proof. unfold digit_val. intro H. rewrite H. unfold is_digit in H. replace (Z.of_N c - 48 <? 10)%Z with true by lia. reflexivity. Qed.
Lemma hex_digit_val c : digit_val 16 c = hex_digit c.
Proof.
  unfold digit_val, hex_digit. destruct (is_digit c) eqn:E1; [unfold is_digit in E1; replace (Z.of_N c - 48 <? 16)%Z with true by lia; reflexivity|].
  unfold is_digit in E1. destruct (is_lower c) eqn:E2; unfold is_lower in E2.
  - destruct (N.leb 97 c && N.leb c 102) eqn:E3; [replace (Z.of_N c - 87 <? 16)%Z with true by lia; reflexivity|].
    replace (Z.of_N c - 87 <? 16)%Z with false by lia. replace (N.leb 65 c && N.leb c 70) with false by lia. reflexivity.
  - replace (N.leb 97 c && N.leb c 102) with false by lia. destruct (is_upper c) eqn:E3; unfold is_upper in E3.
    + destruct (N.leb 65 c && N.leb c 70) eqn:E4; [replace (Z.of_N c - 55 <? 16)%Z with true by lia; reflexivity|]. replace (Z.of_N c - 55 <? 16)%Z with false by lia. reflexivity.
    + replace (N.leb 65 c && N.leb c 70) with false by lia. reflexivity.
Qed.
Lemma base_value_gen base v s : (forall c, In c s -> match digit_val base c with Some d => d | None => 0%Z end = v c) ->
  base_value base s = fold_left (fun a c => base * a + v c)%Z s 0%Z.
Proof.
  unfold base_value. assert (G : forall s, (forall c, In c s -> match digit_val base c with Some d => d | None => 0%Z end = v c) -> forall z,
    fold_left (fun z c => z * base + match digit_val base c with Some d => d | None => 0 end)%Z s z = fold_left (fun a c => base * a + v c)%Z s z).
  { clear s. induction s as [|c s IH]; intros H z; [reflexivity|]. cbn [fold_left]. rewrite (H c (or_introl eq_refl)).
    replace (z * base + v c)%Z with (base * z + v c)%Z by lia. apply IH. intros x Hx. apply H. right. exact Hx. }
  intro H. apply G, H.
Qed.
Lemma py_int_dec s tail : s <> [] -> forallb is_digit s = true -> forallb is_space tail = true -> py_int 10 (s ++ tail) = Some (dec_value s).
Proof.
  intros Hn H Ht. rewrite forallb_forall in H. rewrite py_int_digits; [|exact Hn|intros c Hc; rewrite dec_digit by (apply H, Hc); eauto|lia|exact Ht].
  f_equal. unfold dec_value. rewrite (base_value_gen 10 (fun c => Z.of_N c - 48)%Z); [reflexivity|]. intros c Hc. rewrite dec_digit by (apply H, Hc). reflexivity.
Qed.
Lemma py_int_hex s tail : s <> [] -> forallb is_hex s = true -> forallb is_space tail = true -> py_int 16 (s ++ tail) = Some (hex_value s).
Proof.
  intros Hn H Ht. rewrite forallb_forall in H. rewrite py_int_digits; [|exact Hn| |lia|exact Ht].
  - f_equal. unfold hex_value. rewrite (base_value_gen 16 (fun c => match hex_digit c with Some d => d | None => 0%Z end)); [reflexivity|]. intros c _. rewrite hex_digit_val. reflexivity.
  - intros c Hc. rewrite hex_digit_val. specialize (H c Hc). unfold is_hex in H. destruct (hex_digit c); [eauto|discriminate].
Qed.
(** the size line of a chunk *)
Lemma chunk_size_hex s e b : s <> [] -> forallb is_hex s = true -> ext_ok e -> chunk_size (s ++ e ++ eol b) = Some (hex_value s).
Proof.
  intros Hn H [He1 He2]. unfold chunk_size. assert (Hs : ~ In 59%N s) by (intro X; rewrite forallb_forall in H; specialize (H _ X); discriminate).
  destruct He2 as [-> |[t ->]].
  - cbn [app]. replace (split_once 59 (s ++ eol b)) with (@None (bytes * bytes)).
    + apply py_int_hex; [exact Hn|exact H|apply eol_space].
    + symmetry. apply split_once_none. intro X. apply in_app_or in X as [X|X]; [auto|]. destruct b; cbn in X; intuition discriminate.
  - replace (split_once 59 (s ++ (59%N :: t) ++ eol b)) with (Some (s, t ++ eol b)) by (symmetry; apply split_once_hit; exact Hs).
    rewrite <- (app_nil_r s) at 1. apply py_int_hex; [exact Hn|exact H|reflexivity].
Qed.

(** ** start lines *)
Lemma rstrip_pad a b : no_ws_end a -> forallb is_space b = true -> rstrip (a ++ b) = a.
Proof.
  intros Ha Hb. unfold rstrip. rewrite rev_app_distr. rewrite drop_while_app_all.
  - destruct (last_case a) as [-> |(t & c & ->)]; [reflexivity|]. rewrite rev_app_distr. cbn [rev app drop_while]. rewrite (Ha t c eq_refl). cbn [rev]. rewrite rev_involutive. reflexivity.
  - rewrite forallb_forall in *. intros x Hx. apply Hb, in_rev, Hx.
Qed.
Lemma no_ws_app a b : b <> [] -> no_ws_end b -> no_ws_end (a ++ b).
Proof.
  intros Hn Hb t c E. destruct (last_case b) as [-> |(u & d & ->)]; [contradiction|]. rewrite app_assoc in E. apply app_inj_tail in E as [_ <-]. apply (Hb u d eq_refl).
Qed.
Lemma no_ws_digits s : forallb is_digit s = true -> no_ws_end s.
Proof. intros H t c ->. rewrite forallb_app in H. cbn in H. apply is_digit_not_space. destruct (is_digit c); [reflexivity|]. rewrite Bool.andb_comm in H. discriminate. Qed.
Lemma digits_no_sp s : forallb is_digit s = true -> ~ In SP s.
Proof. intros H X. rewrite forallb_forall in H. specialize (H _ X). discriminate. Qed.
Lemma start_status rm v0 c0 p0 l b version code phrase h : h_kind h = KResponse rm v0 c0 p0 -> status_line l version code phrase ->
  exists k, set_start_line h (l ++ eol b) = Ret (set_keep (set_kind h (KResponse rm version code (Some phrase))) k) /\ (k = h_keep_alive h \/ k = false).
Proof.
  intros Hk Hl.
  assert (G : forall version code rest, code <> [] -> forallb is_digit code = true -> split_max 2 SP (rstrip (l ++ eol b)) = version :: code :: rest ->
    exists k, set_start_line h (l ++ eol b) = Ret (set_keep (set_kind h (KResponse rm version (dec_value code) (Some match rest with p :: _ => p | [] => [] end))) k) /\ (k = h_keep_alive h \/ k = false)).
  { intros version' code' rest Hn Hd E. unfold set_start_line. rewrite Hk, E. rewrite <- (app_nil_r code'), py_int_dec, app_nil_r by (try exact Hn; try exact Hd; reflexivity).
    destruct (bytes_eqb version' (B "HTTP/1.0")); [exists false; split; [reflexivity|auto]|]. exists (h_keep_alive h). split; [|auto]. reflexivity. }
  destruct Hl as [version code phrase H1 H2 H3 H4|version code H1 H2 H3].
  - destruct phrase as [|x phrase].
    + destruct (G version code [] H2 H3) as (k & E & Hkk); [|exists k; auto].
      replace ((version ++ [SP] ++ code ++ [SP] ++ []) ++ eol b) with ((version ++ [SP] ++ code) ++ ([SP] ++ eol b)) by (rewrite <- !app_assoc; reflexivity).
      rewrite rstrip_pad; [|apply no_ws_app; [discriminate|apply no_ws_app; [exact H2|apply no_ws_digits; exact H3]]|destruct b; reflexivity].
      cbn [split_max]. replace (split_once SP (version ++ [SP] ++ code)) with (Some (version, code)) by (symmetry; apply split_once_hit; exact H1).
      replace (split_once SP code) with (@None (bytes * bytes)) by (symmetry; apply split_once_none, digits_no_sp; exact H3). reflexivity.
    + destruct (G version code [x :: phrase] H2 H3) as (k & E & Hkk); [|exists k; auto].
      rewrite rstrip_pad; [|apply no_ws_app; [discriminate|apply no_ws_app; [destruct code; discriminate|apply no_ws_app; [discriminate|apply (no_ws_app [SP]); [discriminate|exact H4]]]]|destruct b; reflexivity].
      cbn [split_max]. replace (split_once SP (version ++ [SP] ++ code ++ [SP] ++ x :: phrase)) with (Some (version, code ++ [SP] ++ x :: phrase)) by (symmetry; apply split_once_hit; exact H1).
      replace (split_once SP (code ++ [SP] ++ x :: phrase)) with (Some (code, x :: phrase)) by (symmetry; apply split_once_hit, digits_no_sp; exact H3). reflexivity.
  - destruct (G version code [] H2 H3) as (k & E & Hkk); [|exists k; auto].
    rewrite rstrip_pad; [|apply no_ws_app; [discriminate|apply no_ws_app; [exact H2|apply no_ws_digits; exact H3]]|destruct b; reflexivity].
    cbn [split_max]. replace (split_once SP (version ++ [SP] ++ code)) with (Some (version, code)) by (symmetry; apply split_once_hit; exact H1).
    replace (split_once SP code) with (@None (bytes * bytes)) by (symmetry; apply split_once_none, digits_no_sp; exact H3). reflexivity.
Qed.
Lemma url_rx_start c t : c <> 104%N -> c <> 72%N -> re_match url_rx (c :: t) = None.
Proof.
  intros H1 H2. unfold re_match, url_rx. change (rstr_i (B "http")) with (RSeq (lit_i 104) (rstr_i (B "ttp"))). cbn [rmatch lit_i].
  replace (N.eqb (to_lower 104) (to_lower c)) with false; [reflexivity|]. symmetry. apply N.eqb_neq. change (to_lower 104) with 104%N.
  unfold to_lower. destruct (is_upper c) eqn:E; [|congruence]. intro X. apply H2. unfold is_upper in E. lia.
Qed.
(** *** absolute URLs *)
Lemma star_greedy_stop {A} p (k : bytes -> bytes -> option A) w : forall pre x r,
  forallb p w = true -> (x = [] \/ exists c t, x = c :: t /\ p c = false) ->
  k (rev w ++ pre) x = Some r -> star_greedy p pre (w ++ x) k = Some r.
Proof.
  induction w as [|c w IH]; intros pre x r Hw Hx Hk.
  - cbn [app rev] in *. destruct Hx as [-> |(c & t & -> & Hc)]; cbn [star_greedy]; [exact Hk|]. rewrite Hc. exact Hk.
  - cbn [forallb] in Hw. apply Bool.andb_true_iff in Hw as [Hc Hw]. cbn [app star_greedy]. rewrite Hc.
    cbn [rev] in Hk. rewrite <- app_assoc in Hk. rewrite (IH (c :: pre) x r Hw Hx Hk). reflexivity.
Qed.
Lemma rstr_i_match {A} lit : forall s pre x g (k : bytes -> bytes -> groups -> option A), lower s = lower lit ->
  rmatch (rstr_i lit) pre (s ++ x) g k = k (rev s ++ pre) x g.
Proof.
  induction lit as [|c l IH]; intros s pre x g k H.
  - destruct s; [reflexivity|discriminate].
  - destruct s as [|d s]; [discriminate|]. cbn [lower map] in H. injection H as H1 H2. cbn [rstr_i rmatch lit_i app].
    rewrite H1, N.eqb_refl. rewrite IH by exact H2. cbn [rev]. rewrite <- app_assoc. reflexivity.
Qed.
Lemma rstr_match {A} lit : forall pre x g (k : bytes -> bytes -> groups -> option A),
  rmatch (rstr lit) pre (lit ++ x) g k = k (rev lit ++ pre) x g.
Proof.
  induction lit as [|c l IH]; intros pre x g k; [reflexivity|]. cbn [rstr rmatch Regex.lit app]. rewrite N.eqb_refl, IH.
  cbn [rev]. rewrite <- app_assoc. reflexivity.
Qed.
Lemma captured (w pre : bytes) : rev (firstn (List.length (rev w ++ pre) - List.length pre) (rev w ++ pre)) = w.
Proof.
  rewrite app_length, Nat.add_sub, firstn_app, Nat.sub_diag, firstn_all. cbn [firstn]. rewrite app_nil_r, rev_involutive. reflexivity.
Qed.
Definition url_groups (u : abs_url) : groups :=
  (1, u_path u) :: (5, u_host u ++ match u_port u with Some p => [COLON] ++ p | None => [] end) ::
  (match u_port u with Some p => [(4, p)] | None => [] end) ++ [(3, u_host u); (2, u_scheme u)].
Lemma forallb_not_in p (s : bytes) : (forall c, In c s -> p c = true) -> forallb p s = true.
Proof. intro H. apply forallb_forall. exact H. Qed.
Lemma scheme_match {A} sch pre x g (k : bytes -> bytes -> groups -> option A) r :
  (lower sch = B "http" \/ lower sch = B "https") -> k (rev sch ++ pre) (58%N :: x) ((2, sch) :: g) = Some r ->
  rmatch (RGrp 2 (RSeq (rstr_i (B "http")) (ropt (lit_i 115)))) pre (sch ++ 58%N :: x) g k = Some r.
Proof.
  intros H Hk. cbn [rmatch ropt]. destruct H as [H|H].
  - rewrite rstr_i_match by exact H. cbn [lit_i rmatch]. change (N.eqb (to_lower 115) (to_lower 58)) with false. cbn iota.
    rewrite captured. exact Hk.
  - assert (E : exists s c, sch = s ++ [c] /\ lower s = B "http" /\ to_lower c = 115%N).
    { destruct (last_case sch) as [-> |(s & c & ->)]; [discriminate|]. exists s, c. split; [reflexivity|].
      unfold lower in H. rewrite map_app in H. cbn [map] in H. change (B "https") with (B "http" ++ [115%N]) in H.
      apply app_inj_tail in H as [H1 H2]. split; [exact H1|exact H2]. }
    destruct E as (s & c & -> & H1 & H2). rewrite <- app_assoc. rewrite rstr_i_match by exact H1. cbn [app lit_i rmatch].
    rewrite H2. change (to_lower 115) with 115%N. rewrite N.eqb_refl.
    replace (c :: rev s ++ pre) with (rev (s ++ [c]) ++ pre) by (rewrite rev_app_distr; reflexivity).
    rewrite captured. unfold bytes in *. rewrite Hk. reflexivity.
Qed.
Lemma plus_match {A} p w pre x (k : bytes -> bytes -> groups -> option A) g r :
  w <> [] -> forallb p w = true -> (x = [] \/ exists c t, x = c :: t /\ p c = false) ->
  k (rev w ++ pre) x g = Some r -> rmatch (rplus true p) pre (w ++ x) g k = Some r.
Proof.
  intros Hw Hp Hx Hk. destruct w as [|c w]; [contradiction|]. cbn [forallb] in Hp. apply Bool.andb_true_iff in Hp as [Hc Hp].
  cbn [rplus rmatch app]. rewrite Hc. apply star_greedy_stop; [exact Hp|exact Hx|]. cbn [rev] in Hk. rewrite <- app_assoc in Hk. exact Hk.
Qed.
Lemma no_colon_slash_all s : ~ In COLON s -> ~ In 47%N s -> forallb no_colon_slash s = true.
Proof.
  intros H1 H2. apply forallb_forall. intros c Hc. unfold no_colon_slash.
  destruct (N.eqb_spec c 58) as [-> |]; [contradiction|]. destruct (N.eqb_spec c 47) as [-> |]; [contradiction|]. reflexivity.
Qed.
Lemma rm_seq {A} a b pre suf g (k : bytes -> bytes -> groups -> option A) :
  rmatch (RSeq a b) pre suf g k = rmatch a pre suf g (fun pre' suf' g' => rmatch b pre' suf' g' k).
Proof. reflexivity. Qed.
Lemma url_rx_match u : url_ok u -> re_match url_rx (url_text u) = Some (url_groups u).
Proof.
  intros (Hs & Hh & Hc & Hsl & Hp & Hpath & Hlf). unfold re_match, url_rx, url_text. destruct u as [sch host port path]. cbn [u_scheme u_host u_port u_path] in *.
  rewrite rm_seq. change (B "://" ++ ?x) with (58%N :: ([47; 47]%N ++ x)).
  assert (Path : forall pre g, star_greedy dot pre path (fun pre' _ => Some ((1, rev (firstn (List.length pre' - List.length pre) pre')) :: g)) = Some ((1, path) :: g)).
  { intros pre g. rewrite <- (app_nil_r path) at 1. apply star_greedy_stop; [|left; reflexivity|rewrite captured; reflexivity].
    apply forallb_forall. intros c Hin. unfold dot. destruct (N.eqb_spec c 10) as [-> |]; [contradiction|reflexivity]. }
  apply (scheme_match sch [] _ [] _ _ Hs).
  change (58%N :: ([47; 47]%N ++ ?x)) with (B "://" ++ x).
  cbv beta. rewrite rm_seq, rstr_match. set (pre := rev (B "://") ++ rev sch ++ []). cbn [rmatch].
  apply (plus_match no_colon_slash host pre); [exact Hh|apply no_colon_slash_all; assumption| |].
  { destruct port as [p|]; [right; exists COLON, (p ++ path); split; reflexivity|]. cbn [app].
    destruct Hpath as [-> |[t ->]]; [left; reflexivity|right; exists 47%N, t; split; reflexivity]. }
  cbn [ropt rmatch]. rewrite captured. destruct port as [p|].
  - destruct Hp as [Hp1 Hp2]. cbn [app lit rmatch]. rewrite N.eqb_refl.
    erewrite (plus_match is_digit p (COLON :: rev host ++ pre)); [reflexivity|exact Hp1|exact Hp2| |].
    { destruct Hpath as [-> |[t ->]]; [left; reflexivity|right; exists 47%N, t; split; reflexivity]. }
    cbn beta. rewrite captured.
    assert (E : rev (firstn (List.length (rev p ++ COLON :: rev host ++ pre) - List.length pre) (rev p ++ COLON :: rev host ++ pre)) = host ++ COLON :: p).
    { replace (rev p ++ COLON :: rev host ++ pre) with (rev (host ++ COLON :: p) ++ pre).
      - apply captured.
      - rewrite rev_app_distr. cbn [rev]. rewrite <- !app_assoc. reflexivity. }
    rewrite E. cbn [rmatch]. rewrite Path. reflexivity.
  - cbn [app]. assert (E : match path with c :: t => if N.eqb 58 c then @Some groups [] else None | [] => None end = None).
    { destruct Hpath as [-> |[t ->]]; reflexivity. }
    destruct Hpath as [Hpath|[t Hpath]]; rewrite Hpath in *; cbn [lit rmatch]; rewrite ?captured, Path; unfold url_groups; cbn [u_host u_port u_path u_scheme]; rewrite ?app_nil_r; reflexivity.
Qed.
Lemma split_all_two a b : ~ In COLON a -> ~ In COLON b -> split_all COLON (a ++ [COLON] ++ b) = [a; b].
Proof.
  intros Ha Hb. assert (Hone : split_all COLON b = [b]).
  { clear Ha. induction b as [|c t IH]; [reflexivity|]. cbn [split_all]. destruct (N.eqb_spec c COLON) as [-> |]; [exfalso; apply Hb; left; reflexivity|].
    rewrite IH; [reflexivity|]. intro X. apply Hb. right. exact X. }
  induction a as [|c t IH]; cbn [app split_all].
  - rewrite N.eqb_refl. cbn [app]. rewrite Hone. reflexivity.
  - destruct (N.eqb_spec c COLON) as [-> |]; [exfalso; apply Ha; left; reflexivity|].
    change (t ++ COLON :: b) with (t ++ [COLON] ++ b). rewrite IH; [reflexivity|]. intro X. apply Ha. right. exact X.
Qed.
Lemma start_request a0 b0 c0 d0 l b method target version text h : h_kind h = KRequest a0 b0 c0 d0 -> request_line l method target version text ->
  set_start_line h (l ++ eol b) = Ret (set_kind h (KRequest method target version text)).
Proof.
  intros Hk Hr. unfold set_start_line. rewrite Hk.
  assert (S : forall m t v, ~ In SP m -> ~ In SP t -> v <> [] -> no_ws_end v -> split_max 2 SP (rstrip ((m ++ [SP] ++ t ++ [SP] ++ v) ++ eol b)) = [m; t; v]).
  { intros m t v H1 H2 H3 H4.
    rewrite rstrip_pad; [|apply no_ws_app; [discriminate|apply no_ws_app; [destruct t; discriminate|apply no_ws_app; [discriminate|apply (no_ws_app [SP]); assumption]]]|destruct b; reflexivity].
    cbn [split_max]. replace (split_once SP (m ++ [SP] ++ t ++ [SP] ++ v)) with (Some (m, t ++ [SP] ++ v)) by (symmetry; apply split_once_hit; exact H1).
    replace (split_once SP (t ++ [SP] ++ v)) with (Some (t, v)) by (symmetry; apply split_once_hit; exact H2). reflexivity. }
  destruct Hr as [m t v H1 H2 H3 H4 H5 (c & u & -> & C1 & C2)|m u v H1 H2 H3 H4 H5 H6|m ho po v H1 H2 H3 H4 H5 H6 H7 H8].
  - rewrite S by assumption. replace (bytes_eqb (upper m) (B "CONNECT")) with false by (symmetry; apply bytes_eqb_neq; exact H5).
    rewrite url_rx_start by assumption. reflexivity.
  - rewrite S by assumption. replace (bytes_eqb (upper m) (B "CONNECT")) with false by (symmetry; apply bytes_eqb_neq; exact H6).
    rewrite url_rx_match by exact H2. change (group 1 (url_groups u)) with (u_path u). destruct (u_path u); reflexivity.
  - rewrite S; try assumption.
    + rewrite H6, bytes_eqb_refl, split_all_two by assumption. reflexivity.
    + intro X. apply in_app_or in X as [X|[X|X]]; [contradiction|discriminate|contradiction].
Qed.

(** ** framing *)
Definition same_rest (h h' : hdr) : Prop :=
  h_kind h' = h_kind h /\ h_headers h' = h_headers h /\ h_trailers h' = h_trailers h /\ h_ignore h' = h_ignore h.
Lemma named_cons ign n nv l : named ign n (nv :: l) = (if bytes_eqb (lower (fst nv)) n && negb (in_list n ign) then [lower (snd nv)] else []) ++ named ign n l.
Proof. unfold named. cbn [filter]. destruct (_ && _); reflexivity. Qed.
Definition mode_after (m : bmode) (chunked : bool) (lens : list bytes) : bmode :=
  if chunked then MChunked else match m, lens with MClose, _ :: _ => MLength | _, _ => m end.
Definition heads (h : hdr) (n : bytes) (nv : bytes * bytes) : list bytes :=
  if bytes_eqb (lower (fst nv)) n && negb (in_list n (h_ignore h)) then [lower (snd nv)] else [].
Lemma named_heads h n nv l : named (h_ignore h) n (nv :: l) = heads h n nv ++ named (h_ignore h) n l.
Proof. apply named_cons. Qed.
Lemma note_header_spec h nv h1 : note_header h nv = Ret h1 ->
  same_rest h h1 /\
  h_mode h1 = mode_after (h_mode h) (existsb (contains (B "chunked")) (heads h (B "transfer-encoding") nv)) (heads h (B "content-length") nv) /\
  (h_mode h = MClose -> forall v, heads h (B "content-length") nv = [v] -> exists z, py_int 10 v = Some z /\ h_length h1 = Some z) /\
  (h_mode h <> MClose \/ heads h (B "content-length") nv = [] -> h_length h1 = h_length h) /\
  h_encoding h1 = (match heads h (B "content-encoding") nv with v :: _ => Some v | [] => h_encoding h end) /\
  h_expect h1 = h_expect h || existsb (contains (B "100-continue")) (heads h (B "expect") nv).
Proof.
  unfold note_header, heads. cbv zeta. destruct nv as [n v]. cbn [fst snd]. set (n' := lower n). set (v' := lower v). clearbody n' v'.
  destruct (in_list n' (h_ignore h)) eqn:Ei.
  { intro H. injection H as <-. assert (Z : forall k, bytes_eqb n' k && negb (in_list k (h_ignore h)) = false).
    { intro k. destruct (bytes_eqb n' k) eqn:E; [|reflexivity]. apply bytes_eqb_eq in E. subst k. rewrite Ei. reflexivity. }
    rewrite !Z. cbn [existsb mode_after]. rewrite Bool.orb_false_r. unfold same_rest. split; [auto|]. split; [destruct (h_mode h); reflexivity|]. split; [discriminate|]. auto. }
  assert (Q : forall X, h1 = X -> same_rest h X -> same_rest h h1) by (intros X ->; auto).
  destruct (bytes_eqb n' (B "expect")) eqn:E1.
  { apply bytes_eqb_eq in E1. subst n'. rewrite Ei. change (bytes_eqb (B "expect") (B "transfer-encoding")) with false. change (bytes_eqb (B "expect") (B "content-length")) with false.
    change (bytes_eqb (B "expect") (B "content-encoding")) with false. cbn [andb negb existsb]. rewrite !Bool.orb_false_r.
    destruct (contains (B "100-continue") v'); intro H; injection H as <-; cbn; rewrite ?Bool.orb_true_r, ?Bool.orb_false_r; (split; [repeat split|]); (split; [destruct (h_mode h); reflexivity|]); (split; [discriminate|]); auto. }
  cbn [andb existsb]. rewrite Bool.orb_false_r. destruct (bytes_eqb n' (B "content-length")) eqn:E2.
  { apply bytes_eqb_eq in E2. subst n'. rewrite Ei. change (bytes_eqb (B "content-length") (B "transfer-encoding")) with false.
    change (bytes_eqb (B "content-length") (B "content-encoding")) with false. cbn [andb negb existsb].
    destruct (h_mode h) eqn:Em.
    - destruct (py_int 10 v') as [z|] eqn:Ez; [|discriminate]. intro H. injection H as <-. split; [repeat split|]. split; [reflexivity|]. split; [intros _ x X; injection X as <-; eauto|].
      split; [intros [X|X]; [contradiction|discriminate]|]. auto.
    - intro H. injection H as <-. split; [repeat split|]. split; [exact Em|]. split; [discriminate|]. auto.
    - intro H. injection H as <-. split; [repeat split|]. split; [exact Em|]. split; [discriminate|]. auto. }
  cbn [andb]. destruct (bytes_eqb n' (B "transfer-encoding")) eqn:E3.
  { apply bytes_eqb_eq in E3. subst n'. rewrite Ei. change (bytes_eqb (B "transfer-encoding") (B "content-encoding")) with false. cbn [andb negb existsb]. rewrite Bool.orb_false_r.
    destruct (contains (B "chunked") v'); intro H; injection H as <-; (split; [repeat split|]); (split; [cbn; destruct (h_mode h); reflexivity|]); (split; [discriminate|]); auto. }
  cbn [andb existsb]. destruct (bytes_eqb n' (B "content-encoding")) eqn:E4.
  { apply bytes_eqb_eq in E4. subst n'. rewrite Ei. cbn [andb negb]. intro H. injection H as <-. (split; [repeat split|]); (split; [cbn; destruct (h_mode h); reflexivity|]); (split; [discriminate|]); auto. }
  cbn [andb]. assert (R : forall k, let h2 := set_keep h k in same_rest h h2 /\ h_mode h2 = mode_after (h_mode h) false [] /\ (h_mode h = MClose -> forall v, [] = [v] -> exists z, py_int 10 v = Some z /\ h_length h2 = Some z) /\
    (h_mode h <> MClose \/ @nil bytes = [] -> h_length h2 = h_length h) /\ h_encoding h2 = h_encoding h /\ h_expect h2 = h_expect h).
  { intro k. (split; [repeat split|]); (split; [cbn; destruct (h_mode h); reflexivity|]); (split; [discriminate|]); auto. }
  assert (R0 : h = set_keep h (h_keep_alive h)) by (destruct h; reflexivity).
  destruct (bytes_eqb n' (B "connection")).
  - destruct (contains (B "keep-alive") v'); [intro H; injection H as <-; apply R|]. destruct (contains (B "close") v'); intro H; injection H as <-; [apply R|].
    specialize (R (h_keep_alive h)). rewrite <- R0 in R. apply R.
  - intro H. injection H as <-. specialize (R (h_keep_alive h)). rewrite <- R0 in R. apply R.
Qed.
Lemma note_headers_spec l : forall h h', note_headers h l = Ret h' ->
  let ign := h_ignore h in
  same_rest h h' /\
  h_mode h' = mode_after (h_mode h) (says_chunked ign l) (named ign (B "content-length") l) /\
  (h_mode h = MClose -> says_chunked ign l = false -> forall v, length_value ign l = Some v -> exists z, py_int 10 v = Some z /\ h_length h' = Some z) /\
  (h_mode h <> MClose -> h_length h' = h_length h) /\
  h_encoding h' = (match coding ign l with Some v => Some v | None => h_encoding h end) /\
  h_expect h' = h_expect h || existsb (contains (B "100-continue")) (named ign (B "expect") l).
Proof.
  cbv zeta. induction l as [|nv l IH]; intros h h' H.
  - injection H as <-. cbn. rewrite Bool.orb_false_r. split; [repeat split|]. split; [destruct (h_mode h); reflexivity|]. split; [discriminate|]. auto.
  - cbn [note_headers] in H. destruct (note_header h nv) as [h1| |] eqn:E; try discriminate. cbn [bind] in H.
    destruct (IH _ _ H) as ((I1 & I2 & I3 & I4) & I5 & I6 & I7 & I8 & I9). clear IH H.
    destruct (note_header_spec _ _ _ E) as ((J1 & J2 & J3 & J4) & J5 & J6 & J7 & J8 & J9). clear E.
    rewrite J4 in *. unfold says_chunked, length_value, coding in *. rewrite !named_heads.
    set (LT := named (h_ignore h) (B "transfer-encoding") l) in *. set (LL := named (h_ignore h) (B "content-length") l) in *.
    set (LE := named (h_ignore h) (B "content-encoding") l) in *. set (LX := named (h_ignore h) (B "expect") l) in *. clearbody LT LL LE LX.
    assert (HL : forall k, heads h k nv = [] \/ exists v, heads h k nv = [v]) by (intro k; unfold heads; destruct (_ && _); eauto).
    pose proof (HL (B "content-length")) as HL1. pose proof (HL (B "content-encoding")) as HL2. clear HL.
    set (KT := heads h (B "transfer-encoding") nv) in *. set (KL := heads h (B "content-length") nv) in *.
    set (KE := heads h (B "content-encoding") nv) in *. set (KX := heads h (B "expect") nv) in *. clearbody KT KL KE KX.
    rewrite !existsb_app. split; [repeat split; congruence|]. split; [|split; [|split; [|split]]].
    + rewrite I5, J5. unfold mode_after. destruct (existsb (contains (B "chunked")) KT), (existsb (contains (B "chunked")) LT), (h_mode h), KL, LL; reflexivity.
    + intros Hc Hs v Hv. apply Bool.orb_false_iff in Hs as [Hs1 Hs2]. rewrite Hc, Hs1 in J5.
      destruct HL1 as [-> |[w ->]]; cbn [app hd_error mode_after] in *.
      * apply I6; assumption.
      * injection Hv as <-. destruct (J6 Hc w eq_refl) as (z & Z1 & Z2). exists z. split; [exact Z1|]. rewrite I7; [exact Z2|]. rewrite J5. discriminate.
    + intro Hc. rewrite I7; [apply J7; auto|]. rewrite J5. unfold mode_after. destruct (existsb _ KT); [discriminate|]. destruct (h_mode h); try discriminate. contradiction.
    + rewrite I8, J8. rewrite rev_app_distr. destruct HL2 as [-> |[w ->]]; cbn [rev app]; [rewrite app_nil_r; reflexivity|]. destruct (rev LE); reflexivity.
    + rewrite I9, J9. rewrite Bool.orb_assoc. reflexivity.
Qed.
(** keep-alive *)
Definition keep_step (k : bool) (v : bytes) : bool :=
  if contains (B "keep-alive") v then true else if contains (B "close") v then false else k.
Lemma note_header_keep h nv h1 : note_header h nv = Ret h1 ->
  h_ignore h1 = h_ignore h /\ h_keep_alive h1 = fold_left keep_step (heads h (B "connection") nv) (h_keep_alive h).
Proof.
  intro H. split; [apply (note_header_spec _ _ _ H)|]. revert H.
  unfold note_header, heads. cbv zeta. destruct nv as [n v]. cbn [fst snd]. set (n' := lower n). set (v' := lower v). clearbody n' v'.
  destruct (in_list n' (h_ignore h)) eqn:Ei.
  { intro H. injection H as <-. destruct (bytes_eqb n' (B "connection")) eqn:E; [|reflexivity]. apply bytes_eqb_eq in E. subst n'. rewrite Ei. reflexivity. }
  destruct (bytes_eqb n' (B "expect")) eqn:E1.
  { apply bytes_eqb_eq in E1. subst n'. change (bytes_eqb (B "expect") (B "connection")) with false. cbn [andb fold_left].
    destruct (contains _ v'); intro H; injection H as <-; reflexivity. }
  destruct (bytes_eqb n' (B "content-length")) eqn:E2.
  { apply bytes_eqb_eq in E2. subst n'. change (bytes_eqb (B "content-length") (B "connection")) with false. cbn [andb fold_left].
    destruct (h_mode h); [destruct (py_int 10 v'); [|discriminate]| |]; intro H; injection H as <-; reflexivity. }
  destruct (bytes_eqb n' (B "transfer-encoding")) eqn:E3.
  { apply bytes_eqb_eq in E3. subst n'. change (bytes_eqb (B "transfer-encoding") (B "connection")) with false. cbn [andb fold_left].
    destruct (contains _ v'); intro H; injection H as <-; reflexivity. }
  destruct (bytes_eqb n' (B "content-encoding")) eqn:E4.
  { apply bytes_eqb_eq in E4. subst n'. change (bytes_eqb (B "content-encoding") (B "connection")) with false. cbn [andb fold_left].
    intro H; injection H as <-; reflexivity. }
  destruct (bytes_eqb n' (B "connection")) eqn:E5.
  - apply bytes_eqb_eq in E5. subst n'. rewrite Ei. cbn [andb negb fold_left]. unfold keep_step.
    destruct (contains (B "keep-alive") v'); [intro H; injection H as <-; reflexivity|].
    destruct (contains (B "close") v'); intro H; injection H as <-; reflexivity.
  - intro H; injection H as <-; reflexivity.
Qed.
Lemma note_headers_keep l : forall h h', note_headers h l = Ret h' ->
  h_keep_alive h' = fold_left keep_step (named (h_ignore h) (B "connection") l) (h_keep_alive h).
Proof.
  induction l as [|nv l IH]; intros h h' H; [injection H as <-; reflexivity|]. cbn [note_headers] in H.
  destruct (note_header h nv) as [h1| |] eqn:E; try discriminate. cbn [bind] in H.
  destruct (note_header_keep _ _ _ E) as [E1 E2]. rewrite named_heads, fold_left_app, <- E2, <- E1. apply IH. exact H.
Qed.
Lemma keep_find vs : forall k, fold_left keep_step vs k =
  match find (fun v => contains (B "keep-alive") v || contains (B "close") v) (rev vs) with
  | Some v => contains (B "keep-alive") v | None => k end.
Proof.
  induction vs as [|v vs IH] using rev_ind; intro k; [reflexivity|].
  rewrite fold_left_app, rev_app_distr. cbn [rev app fold_left find]. rewrite IH. unfold keep_step.
  destruct (contains (B "keep-alive") v) eqn:E1; cbn [orb]; [rewrite E1; reflexivity|].
  destruct (contains (B "close") v); [rewrite E1; reflexivity|reflexivity].
Qed.
(** with readable lengths nothing can go wrong; an unreadable first length is an error *)
Lemma note_header_total h nv : (h_mode h = MClose -> forall v, heads h (B "content-length") nv = [v] -> py_int 10 v <> None) -> exists h1, note_header h nv = Ret h1.
Proof.
  unfold note_header, heads. cbv zeta. intro H. destruct (in_list (lower (fst nv)) (h_ignore h)) eqn:Ei; [eauto|].
  destruct (bytes_eqb _ (B "expect")); [eauto|]. destruct (bytes_eqb (lower (fst nv)) (B "content-length")) eqn:E.
  - apply bytes_eqb_eq in E. rewrite E in *. rewrite Ei in H. destruct (h_mode h); eauto. specialize (H eq_refl _ eq_refl). destruct (py_int 10 (lower (snd nv))); [eauto|contradiction].
  - destruct (bytes_eqb _ (B "transfer-encoding")); [eauto|]. destruct (bytes_eqb _ (B "content-encoding")); [eauto|]. destruct (bytes_eqb _ (B "connection")); eauto.
Qed.
Lemma note_headers_total l : forall h, h_mode h <> MClose \/ length_readable (h_ignore h) l -> exists h', note_headers h l = Ret h'.
Proof.
  induction l as [|nv l IH]; intros h H; [eexists; reflexivity|]. unfold length_readable, length_value in H. rewrite named_heads in H.
  destruct (note_header_total h nv) as [h1 E]; [intros Hm v X; destruct H as [H|H]; [contradiction|]; rewrite X in H; apply H; reflexivity|].
  cbn [note_headers]. rewrite E. cbn [bind]. apply IH. destruct (note_header_spec _ _ _ E) as ((_ & _ & _ & ->) & -> & _). destruct H as [H|H].
  - left. unfold mode_after. destruct (existsb _ _); [discriminate|]. destruct (h_mode h); [contradiction|discriminate|discriminate].
  - destruct (heads h (B "content-length") nv) as [|w k] eqn:Ew; [right; exact H|]. left. unfold mode_after. destruct (existsb _ _); [discriminate|]. destruct (h_mode h); discriminate.
Qed.
Lemma note_headers_first_bad l : forall h v, h_mode h = MClose -> says_chunked (h_ignore h) l = false -> length_value (h_ignore h) l = Some v -> py_int 10 v = None ->
  note_headers h l = Raise EValueError.
Proof.
  induction l as [|nv l IH]; intros h v Hm Hs Hv Hb; [discriminate|]. unfold says_chunked, length_value in *. rewrite named_heads in *. rewrite existsb_app in Hs. apply Bool.orb_false_iff in Hs as [Hs1 Hs2].
  cbn [note_headers]. destruct (heads h (B "content-length") nv) as [|w k] eqn:Ek.
  - destruct (note_header_total h nv) as [h1 E]; [intros _ x X; congruence|]. rewrite E. cbn [bind]. destruct (note_header_spec _ _ _ E) as ((_ & _ & _ & J4) & J5 & _).
    apply IH with v; rewrite ?J4; try assumption. rewrite J5, Hs1, Ek, Hm. reflexivity.
  - injection Hv as ->. unfold heads in Ek. destruct (bytes_eqb (lower (fst nv)) (B "content-length") && negb (in_list (B "content-length") (h_ignore h))) eqn:E; [|discriminate]. injection Ek as Ew _.
    apply Bool.andb_true_iff in E as [E1 E2]. apply bytes_eqb_eq in E1. unfold note_header. cbv zeta. rewrite E1. apply Bool.negb_true_iff in E2. rewrite E2, Ew.
    change (bytes_eqb (B "content-length") (B "expect")) with false. rewrite bytes_eqb_refl, Hm, Hb. reflexivity.
Qed.
