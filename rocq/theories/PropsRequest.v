(** Property C58: what a request header says about its target. *)
From Verif Require Export HttpRequest PropsHttpMore.
From Verif Require Import RegexFacts.
From Coq Require Import String List ZArith Lia.
Open Scope list_scope.

(** ** a match is a match: what a group captured is in the language of the group *)
Fixpoint lang (r : re) (w : bytes) : Prop :=
  match r with
  | REps | RBol | REol | REos | RWordB => w = []
  | RChr p => exists c, w = [c] /\ p c = true
  | RSeq a b => exists u v, w = u ++ v /\ lang a u /\ lang b v
  | RAlt a b => lang a w \/ lang b w
  | RStar _ p => forallb p w = true
  | RGrp _ a => lang a w
  end.
Fixpoint captures (r : re) (n : nat) (w : bytes) : Prop :=
  match r with
  | RSeq a b | RAlt a b => captures a n w \/ captures b n w
  | RGrp m a => (n = m /\ lang a w) \/ captures a n w
  | _ => False
  end.
Lemma star_greedy_inv {A} p suf : forall pre (k : bytes -> bytes -> option A) x, star_greedy p pre suf k = Some x ->
  exists w t, suf = w ++ t /\ forallb p w = true /\ k (rev w ++ pre) t = Some x.
Proof.
  induction suf as [|c s IH]; intros pre k x H; cbn [star_greedy] in H; [exists [], []; auto|].
  destruct (p c) eqn:Ep; [|exists [], (c :: s); auto].
  destruct (star_greedy p (c :: pre) s k) as [y|] eqn:E.
  - injection H as ->. destruct (IH _ _ _ E) as (w & t & -> & Hw & Hk). exists (c :: w), t. split; [reflexivity|].
    cbn [forallb rev]. rewrite Ep. split; [exact Hw|]. rewrite <- app_assoc. exact Hk.
  - exists [], (c :: s). auto.
Qed.
Lemma star_lazy_inv {A} p suf : forall pre (k : bytes -> bytes -> option A) x, star_lazy p pre suf k = Some x ->
  exists w t, suf = w ++ t /\ forallb p w = true /\ k (rev w ++ pre) t = Some x.
Proof.
  induction suf as [|c s IH]; intros pre k x H; cbn [star_lazy] in H.
  - destruct (k pre []) as [y|] eqn:E; [|discriminate]. injection H as ->. exists [], []. auto.
  - destruct (k pre (c :: s)) as [y|] eqn:E; [injection H as ->; exists [], (c :: s); auto|].
    destruct (p c) eqn:Ep; [|discriminate]. destruct (IH _ _ _ H) as (w & t & -> & Hw & Hk). exists (c :: w), t.
    split; [reflexivity|]. cbn [forallb rev]. rewrite Ep. split; [exact Hw|]. rewrite <- app_assoc. exact Hk.
Qed.
Lemma rmatch_inv {A} r : forall pre suf g (k : bytes -> bytes -> groups -> option A) x, rmatch r pre suf g k = Some x ->
  exists w t g', suf = w ++ t /\ lang r w /\ k (rev w ++ pre) t g' = Some x /\
    (forall n u, In (n, u) g' -> In (n, u) g \/ captures r n u).
Proof.
  induction r as [|p|a IHa b IHb|a IHa b IHb|gr p|m a IHa| | | |]; intros pre suf g k x H; cbn [rmatch] in H.
  - exists [], suf, g. cbn. auto.
  - destruct suf as [|c t]; [discriminate|]. destruct (p c) eqn:Ep; [|discriminate]. exists [c], t, g. cbn. eauto 8.
  - destruct (IHa _ _ _ _ _ H) as (u & t & g1 & -> & Hu & Hk & Hg). destruct (IHb _ _ _ _ _ Hk) as (v & t' & g2 & -> & Hv & Hk2 & Hg2).
    exists (u ++ v), t', g2. split; [rewrite <- app_assoc; reflexivity|]. split; [cbn; eauto|]. split; [rewrite rev_app_distr, <- app_assoc; exact Hk2|].
    intros n w Hin. cbn. destruct (Hg2 _ _ Hin) as [X|X]; [|auto]. destruct (Hg _ _ X) as [Y|Y]; auto.
  - destruct (rmatch a pre suf g k) as [y|] eqn:E.
    + injection H as ->. destruct (IHa _ _ _ _ _ E) as (u & t & g1 & -> & Hu & Hk & Hg). exists u, t, g1. cbn. split; [reflexivity|]. split; [auto|]. split; [exact Hk|].
      intros n w Hin. destruct (Hg _ _ Hin); auto.
    + destruct (IHb _ _ _ _ _ H) as (u & t & g1 & -> & Hu & Hk & Hg). exists u, t, g1. cbn. split; [reflexivity|]. split; [auto|]. split; [exact Hk|].
      intros n w Hin. destruct (Hg _ _ Hin); auto.
  - assert (E : exists w t, suf = w ++ t /\ forallb p w = true /\ k (rev w ++ pre) t g = Some x).
    { destruct gr; [apply star_greedy_inv in H|apply star_lazy_inv in H]; exact H. }
    destruct E as (w & t & -> & Hw & Hk). exists w, t, g. cbn. auto.
  - destruct (IHa _ _ _ _ _ H) as (u & t & g1 & -> & Hu & Hk & Hg). exists u, t, ((m, u) :: g1). rewrite captured in Hk.
    split; [reflexivity|]. split; [exact Hu|]. split; [exact Hk|]. intros n w [X|Hin]; [injection X as <- <-; cbn; auto|].
    destruct (Hg _ _ Hin); cbn; auto.
  - destruct pre; [|discriminate]. exists [], suf, g. cbn. auto.
  - exists [], suf, g. cbn. split; [reflexivity|]. split; [reflexivity|]. split; [|auto].
    destruct suf as [|c [|d s]]; [exact H| |]; destruct c as [|[[[[?|?|]|[?|?|]|]|[[?|?|]|[?|?|]|]|]|[[[?|?|]|[?|?|]|]|[[?|?|]|[?|?|]|]|]|]]; try discriminate H; exact H.
  - destruct suf; [|discriminate]. exists [], [], g. cbn. auto.
  - destruct (xorb _ _); [|discriminate]. exists [], suf, g. cbn. auto.
Qed.
Lemma group_in n g w : group_opt n g = Some w -> In (n, w) g.
Proof.
  induction g as [|[m u] g IH]; [discriminate|]. cbn [group_opt]. destruct (Nat.eqb_spec n m) as [-> |]; [intro H; injection H as ->; left; reflexivity|].
  intro H. right. auto.
Qed.
Lemma url_port_digits t g : re_match url_rx t = Some g -> forallb is_digit (group 4 g) = true.
Proof.
  unfold re_match. intro H. destruct (rmatch_inv _ _ _ _ _ _ H) as (w & x & g' & _ & _ & E & Hg). injection E as ->.
  unfold group. destruct (group_opt 4 g) as [u|] eqn:Eg; [|reflexivity]. apply group_in in Eg. destruct (Hg _ _ Eg) as [[]|X].
  cbn in X. intuition (try discriminate; try contradiction).
  match goal with Y : ex _ |- _ => destruct Y as (a & b & -> & (c & -> & Hc) & Hb) end. cbn. rewrite Hc. exact Hb.
Qed.

(** ** the two models of the request header agree *)
Definition base_of (o : outcome rhdr) : outcome hdr :=
  match o with Ret r => Ret (r_base r) | Raise e => Raise e | Diverge => Diverge end.
Lemma note_host_base r nv : r_base (note_host r nv) = r_base r.
Proof. unfold note_host. destruct (bytes_eqb _ _); [|reflexivity]. destruct (split_once _ _) as [[h p]|]; reflexivity. Qed.
Lemma add_header_base r before nv : r_base (r_add_header r before nv) = set_headers (r_base r) (before ++ [nv]).
Proof. unfold r_add_header. cbn. rewrite note_host_base. reflexivity. Qed.
Theorem header_line_agrees r line : base_of (r_add_header_line r line) = add_header_line (r_base r) line.
Proof.
  unfold r_add_header_line, add_header_line. cbv zeta. destruct (is_folded line).
  - unfold fold_last. destruct (rev (h_headers (r_base r))) as [|[k v] t]; cbn [bind base_of]; [reflexivity|]. rewrite add_header_base. reflexivity.
  - destruct (in_list line NEWLINES).
    + destruct (note_headers _ _) as [b|e|]; reflexivity.
    + destruct (split_field line) as [nv|e|]; cbn [bind base_of]; [|reflexivity|reflexivity]. rewrite add_header_base. reflexivity.
Qed.
Lemma py_int_digits p : p <> [] -> forallb is_digit p = true -> py_int 10 p = Some (dec_value p).
Proof. intros H1 H2. rewrite <- (app_nil_r p) at 1. apply py_int_dec; auto. Qed.
Theorem start_line_agrees r line a b c d : h_kind (r_base r) = KRequest a b c d ->
  base_of (r_set_start_line r line) = set_start_line (r_base r) line.
Proof.
  intro Hk. unfold r_set_start_line. destruct (set_start_line (r_base r) line) as [h1|e|] eqn:E; cbn [bind base_of]; try reflexivity.
  unfold set_start_line in E. rewrite Hk in E. destruct (split_max 2 SP (rstrip line)) as [|m [|t [|v [|? ?]]]]; try discriminate.
  destruct (bytes_eqb (upper m) (B "CONNECT")).
  - destruct (split_all COLON t) as [|h [|p [|? ?]]]; try discriminate. reflexivity.
  - destruct (re_match url_rx t) as [g|] eqn:Eg; [|reflexivity]. apply url_port_digits in Eg.
    destruct (group 4 g) as [|x p] eqn:Ep; [reflexivity|]. rewrite py_int_digits by (try discriminate; exact Eg). reflexivity.
Qed.

(** ** Specification *)
(** the lines of a head, as they arrive *)
Definition field_lines (f : hfield) : list bytes :=
  (f_name f ++ [COLON] ++ f_value f ++ eol (f_crlf f)) :: map fold_text (f_folds f).
Definition head_lines (h : msg_head) : list bytes :=
  [hd_start h ++ eol (hd_start_crlf h)] ++ concat (map field_lines (hd_fields h)) ++ [eol (hd_end_crlf h)].
Definition host_values (l : list (bytes * bytes)) : list bytes :=
  map snd (filter (fun nv => bytes_eqb (lower (fst nv)) (B "host")) l).
(** host: the last Host field up to its first colon, or what the request line says *)
Definition says_host (from_line : pyval) (l : list (bytes * bytes)) : pyval :=
  match rev (host_values l) with
  | v :: _ => PBytes (match split_once COLON v with Some (h, _) => h | None => v end)
  | [] => from_line
  end.
(** port: what follows the first colon of the last Host field that has one, as bytes,
    or what the request line says *)
Definition says_port (from_line : pyval) (l : list (bytes * bytes)) : pyval :=
  match find (fun v => existsb (N.eqb COLON) v) (rev (host_values l)) with
  | Some v => PBytes (match split_once COLON v with Some (_, p) => p | None => [] end)
  | None => from_line
  end.
(** what a request line says: host, port, scheme *)
Inductive line_says : bytes -> pyval -> pyval -> pyval -> Prop :=
| line_path method target version :
    ~ In SP method -> ~ In SP target -> version <> [] -> no_ws_end version ->
    upper method <> B "CONNECT" -> (exists c t, target = c :: t /\ c <> 104%N /\ c <> 72%N) ->
    line_says (method ++ [SP] ++ target ++ [SP] ++ version) (PText []) (PInt 80) (PText (B "http"))
| line_url method u version :
    ~ In SP method -> url_ok u -> ~ In SP (url_text u) -> version <> [] -> no_ws_end version ->
    upper method <> B "CONNECT" ->
    line_says (method ++ [SP] ++ url_text u ++ [SP] ++ version)
      (PBytes (u_host u)) (PInt (match u_port u with Some p => dec_value p | None => 80 end)) (PBytes (u_scheme u))
| line_connect method host port version :
    ~ In SP method -> ~ In SP host -> ~ In SP port -> version <> [] -> no_ws_end version ->
    upper method = B "CONNECT" -> ~ In COLON host -> ~ In COLON port ->
    line_says (method ++ [SP] ++ (host ++ [COLON] ++ port) ++ [SP] ++ version) (PBytes host) (PBytes port) (PText (B "http")).

(** ** Proofs *)
Lemma start_split m t v b : ~ In SP m -> ~ In SP t -> v <> [] -> no_ws_end v ->
  split_max 2 SP (rstrip ((m ++ [SP] ++ t ++ [SP] ++ v) ++ eol b)) = [m; t; v].
Proof.
  intros H1 H2 H3 H4.
  rewrite rstrip_pad; [|apply no_ws_app; [discriminate|apply no_ws_app; [destruct t; discriminate|apply no_ws_app; [discriminate|apply (no_ws_app [SP]); assumption]]]|destruct b; reflexivity].
  cbn [split_max]. replace (split_once SP (m ++ [SP] ++ t ++ [SP] ++ v)) with (Some (m, t ++ [SP] ++ v)) by (symmetry; apply split_once_hit; exact H1).
  replace (split_once SP (t ++ [SP] ++ v)) with (Some (t, v)) by (symmetry; apply split_once_hit; exact H2). reflexivity.
Qed.
Lemma line_says_start ign l b host port scheme : line_says l host port scheme ->
  exists r, r_set_start_line (new_rhdr ign) (l ++ eol b) = Ret r /\ r_host r = host /\ r_port r = port /\ r_scheme r = scheme /\
    (exists m t v x, request_line l m t v x /\ r_base r = set_kind (new_request_hdr ign) (KRequest m t v x)).
Proof.
  intro H. unfold r_set_start_line.
  destruct H as [m t v H1 H2 H3 H4 H5 H6|m u v H1 H2 H3 H4 H5 H6|m ho po v H1 H2 H3 H4 H5 H6 H7 H8].
  - pose proof (request_path m t v H1 H2 H3 H4 H5 H6) as R. erewrite start_request; [|reflexivity|exact R]. cbn [bind].
    rewrite start_split by assumption. replace (bytes_eqb (upper m) (B "CONNECT")) with false by (symmetry; apply bytes_eqb_neq; exact H5).
    destruct H6 as (c & w & -> & C1 & C2). rewrite url_rx_start by assumption. eexists. split; [reflexivity|]. cbn. eauto 10.
  - pose proof (request_url m u v H1 H2 H3 H4 H5 H6) as R. erewrite start_request; [|reflexivity|exact R]. cbn [bind].
    rewrite start_split by assumption. replace (bytes_eqb (upper m) (B "CONNECT")) with false by (symmetry; apply bytes_eqb_neq; exact H6).
    rewrite url_rx_match by exact H2. destruct H2 as (_ & _ & _ & _ & Hp & _). unfold url_groups, group.
    destruct (u_port u) as [p|] eqn:Ep; cbn [app group_opt Nat.eqb].
    + destruct Hp as [P1 P2]. destruct p as [|x p]; [contradiction|]. rewrite py_int_digits by assumption.
      eexists. split; [reflexivity|]. cbn [r_host r_port r_scheme r_base]. do 3 (split; [reflexivity|]). do 4 eexists. split; [exact R|reflexivity].
    + eexists. split; [reflexivity|]. cbn [r_host r_port r_scheme r_base]. do 3 (split; [reflexivity|]). do 4 eexists. split; [exact R|reflexivity].
  - pose proof (request_connect m ho po v H1 H2 H3 H4 H5 H6 H7 H8) as R. erewrite start_request; [|reflexivity|exact R]. cbn [bind].
    rewrite start_split; try assumption.
    + rewrite H6, bytes_eqb_refl, split_all_two by assumption. eexists. split; [reflexivity|]. cbn [r_host r_port r_scheme r_base]. do 3 (split; [reflexivity|]). do 4 eexists. split; [exact R|reflexivity].
    + intro X. apply in_app_or in X as [X|[X|X]]; [contradiction|discriminate|contradiction].
Qed.

(** host and port depend on the final header list only *)
Definition told (r : rhdr) (h0 p0 s0 : pyval) : Prop :=
  r_host r = says_host h0 (h_headers (r_base r)) /\ r_port r = says_port p0 (h_headers (r_base r)) /\ r_scheme r = s0.
Lemma host_values_app a b : host_values (a ++ b) = host_values a ++ host_values b.
Proof. unfold host_values. rewrite filter_app, map_app. reflexivity. Qed.
Lemma colon_split v : existsb (N.eqb COLON) v = match split_once COLON v with Some _ => true | None => false end.
Proof.
  induction v as [|c v IH]; [reflexivity|]. cbn [existsb split_once]. rewrite N.eqb_sym. destruct (N.eqb c COLON); [reflexivity|].
  cbn [orb]. rewrite IH. destruct (split_once COLON v) as [[a b]|]; reflexivity.
Qed.
Lemma host_values_one nv : host_values [nv] = if bytes_eqb (lower (fst nv)) (B "host") then [snd nv] else [].
Proof. unfold host_values. cbn [filter]. destruct (bytes_eqb _ _); reflexivity. Qed.
Lemma told_add r h0 p0 s0 before nv : r_host r = says_host h0 before -> r_port r = says_port p0 before -> r_scheme r = s0 ->
  told (r_add_header r before nv) h0 p0 s0.
Proof.
  intros H1 H2 H3. unfold told. rewrite add_header_base. cbn [h_headers set_headers]. unfold r_add_header. cbn [r_host r_port r_scheme with_base].
  unfold says_host, says_port in *. rewrite host_values_app, host_values_one. unfold note_host.
  destruct (bytes_eqb (lower (fst nv)) (B "host")) eqn:E; rewrite ?app_nil_r; [|auto].
  rewrite rev_app_distr. cbn [rev app find]. rewrite colon_split.
  destruct (split_once COLON (snd nv)) as [[h p]|] eqn:Es; cbn [r_host r_port r_scheme]; rewrite ?Es; auto.
Qed.
(** a folded line repeats the last header with a longer value: host and port are as if
    only the longer value had been seen *)
Lemma split_longer v x h p : split_once COLON v = Some (h, p) -> split_once COLON (v ++ x) = Some (h, p ++ x).
Proof.
  revert h p. induction v as [|c v IH]; intros h p H; [discriminate|]. cbn [split_once app] in *. destruct (N.eqb c COLON); [injection H as <- <-; reflexivity|].
  destruct (split_once COLON v) as [[a b]|]; [|discriminate]. injection H as <- <-. rewrite (IH a b eq_refl). reflexivity.
Qed.
Lemma told_fold r h0 p0 s0 before k v x : told r h0 p0 s0 -> h_headers (r_base r) = before ++ [(k, v)] ->
  told (r_add_header r before (k, v ++ x)) h0 p0 s0.
Proof.
  intros (H1 & H2 & H3) E. rewrite E in *. unfold told. rewrite add_header_base. cbn [h_headers set_headers]. unfold r_add_header. cbn [r_host r_port r_scheme with_base].
  unfold says_host, says_port in *. rewrite host_values_app, host_values_one in *. unfold note_host. cbn [fst snd] in *.
  destruct (bytes_eqb (lower k) (B "host")) eqn:Ek; rewrite ?app_nil_r in *; [|auto].
  rewrite rev_app_distr in *. cbn [rev app find] in *. rewrite !colon_split in *. cbn [snd] in *.
  destruct (split_once COLON (v ++ x)) as [[h p]|] eqn:Es; cbn [r_host r_port r_scheme]; rewrite ?Es; [auto|].
  destruct (split_once COLON v) as [[h p]|] eqn:Ev; [rewrite (split_longer _ _ _ _ Ev) in Es; discriminate|]. auto.
Qed.
Lemma told_line r h0 p0 s0 line r' : told r h0 p0 s0 -> r_add_header_line r line = Ret r' -> told r' h0 p0 s0.
Proof.
  intros T. unfold r_add_header_line. cbv zeta. destruct (is_folded line).
  - destruct (rev (h_headers (r_base r))) as [|[k v] t] eqn:E; [discriminate|]. intro H. injection H as <-. apply told_fold; [exact T|].
    rewrite <- (rev_involutive (h_headers (r_base r))), E. reflexivity.
  - destruct (in_list line NEWLINES).
    + destruct (note_headers _ _) as [b| |] eqn:E; try discriminate. cbn [bind]. intro H. injection H as <-.
      destruct (note_headers_spec _ _ _ E) as ((_ & N2 & _) & _). destruct T as (T1 & T2 & T3). unfold told, with_base. cbn [r_base r_host r_port r_scheme]. rewrite N2. auto.
    + destruct (split_field line) as [nv| |]; try discriminate. cbn [bind]. intro H. injection H as <-. destruct T as (T1 & T2 & T3). apply told_add; assumption.
Qed.
Lemma told_lines lines : forall r h0 p0 s0 r', told r h0 p0 s0 -> r_add_lines r lines = Ret r' -> told r' h0 p0 s0.
Proof.
  induction lines as [|l t IH]; intros r h0 p0 s0 r' T H; cbn [r_add_lines] in H; [injection H as <-; exact T|].
  destruct (r_add_header_line r l) as [r1| |] eqn:E; try discriminate. cbn [bind] in H. eapply IH; [|exact H]. eapply told_line; eassumption.
Qed.
(** the header part of the run is the one of the parser *)
Fixpoint add_lines (h : hdr) (lines : list bytes) : outcome hdr :=
  match lines with [] => Ret h | l :: t => bind (add_header_line h l) (fun h' => add_lines h' t) end.
Lemma lines_agree lines : forall r, base_of (r_add_lines r lines) = add_lines (r_base r) lines.
Proof.
  induction lines as [|l t IH]; intro r; [reflexivity|]. cbn [r_add_lines add_lines]. pose proof (header_line_agrees r l) as A.
  destruct (r_add_header_line r l) as [r1|e|]; cbn [base_of bind] in *; rewrite <- A; cbn [bind]; [apply IH|reflexivity|reflexivity].
Qed.
Lemma add_lines_app a : forall h b, add_lines h (a ++ b) = bind (add_lines h a) (fun h' => add_lines h' b).
Proof. induction a as [|l a IH]; intros h b; [reflexivity|]. cbn [app add_lines]. destruct (add_header_line h l); cbn [bind]; [apply IH|reflexivity|reflexivity]. Qed.
Lemma add_folds xs : forall h l k v, Forall (fun x => no_lf (fst x) /\ starts_blank (fst x) = true) xs -> h_headers h = l ++ [(k, v)] ->
  add_lines h (map fold_text xs) = Ret (set_headers h (l ++ [(k, v ++ concat (map (fun x => [SP] ++ strip (fst x)) xs))])).
Proof.
  induction xs as [|[s b] xs IH]; intros h l k v Hx Hl; cbn [map concat add_lines].
  - replace (l ++ [(k, v ++ [])]) with (h_headers h) by (rewrite app_nil_r; exact Hl). rewrite set_headers_eta. reflexivity.
  - inversion Hx as [|? ? [H1 H2] H3]; subst. cbn [fst] in *. destruct (fold_line s b H2) as (F1 & F2 & F3). unfold fold_text at 1. cbn [fst snd].
    unfold add_header_line. rewrite F1, Hl, fold_last_snoc, F3. cbn [bind]. rewrite (IH _ l k (v ++ [SP] ++ strip s)); [|exact H3|reflexivity].
    f_equal. unfold set_headers. cbn. rewrite <- !app_assoc. reflexivity.
Qed.
Lemma add_fields fs : forall h, Forall field_ok fs -> add_lines h (concat (map field_lines fs)) = Ret (set_headers h (h_headers h ++ map field_pair fs)).
Proof.
  induction fs as [|f fs IH]; intros h Hok; cbn [map concat].
  - cbn [add_lines]. rewrite app_nil_r, set_headers_eta. reflexivity.
  - inversion Hok as [|? ? H1 H2]; subst. rewrite add_lines_app. unfold field_lines at 1. cbn [add_lines].
    pose proof H1 as (_ & _ & _ & _ & N5). destruct (field_first f (f_crlf f) H1) as (F1 & F2 & F3).
    unfold add_header_line. rewrite F1, F2, F3. cbn [bind].
    erewrite (add_folds (f_folds f) _ (h_headers h) (strip (f_name f)) (strip (f_value f)) N5); [|reflexivity]. cbn [bind].
    rewrite IH by exact H2. f_equal. unfold set_headers. cbn. rewrite <- app_assoc. reflexivity.
Qed.

(** ** C58 *)
Section C58.
Variable gz : bytes -> outcome bytes.
Variables (ign : list bytes) (h : msg_head) (host port scheme : pyval).
Hypothesis Hok : head_ok h.
Hypothesis Hsays : line_says (hd_start h) host port scheme.
Hypothesis Hlength : length_readable (ignored ign) (head_pairs h).
Theorem C58_request_attributes : exists r,
  r_head (new_rhdr ign) (head_lines h) = Ret r /\
  r_host r = says_host host (head_pairs h) /\ r_port r = says_port port (head_pairs h) /\ r_scheme r = scheme /\
  (* and this is the header the parser has after reading the head *)
  (forall rest m unread, feed gz (parser_for None ign) (head_text h ++ rest) = Ret (m, unread) -> core (m_head m) = core (r_base r)).
Proof.
  destruct Hok as (_ & _ & _ & Hf).
  destruct (line_says_start ign (hd_start h) (hd_start_crlf h) host port scheme Hsays) as (r1 & E1 & H1 & H2 & H3 & (m0 & t0 & v0 & x0 & R & Hb)).
  unfold r_head, head_lines. cbn [app]. rewrite E1. cbn [bind].
  set (lines := concat (map field_lines (hd_fields h)) ++ [eol (hd_end_crlf h)]).
  assert (B1 : h_headers (r_base r1) = []) by (rewrite Hb; reflexivity).
  assert (G : exists hd, add_lines (r_base r1) lines = Ret hd /\ note_headers (set_headers (r_base r1) (head_pairs h)) (head_pairs h) = Ret hd).
  { unfold lines. rewrite add_lines_app, add_fields by exact Hf. cbn [bind add_lines]. rewrite B1. cbn [app]. fold (head_pairs h).
    unfold add_header_line. replace (is_folded (eol (hd_end_crlf h))) with false by (destruct (hd_end_crlf h); reflexivity). rewrite newlines_eol.
    cbn [h_headers set_headers]. destruct (note_headers_total (head_pairs h) (set_headers (r_base r1) (head_pairs h))) as [hd E].
    { right. change (h_ignore (set_headers (r_base r1) (head_pairs h))) with (h_ignore (r_base r1)). rewrite Hb. exact Hlength. }
    exists hd. split; [|exact E]. rewrite E. reflexivity. }
  destruct G as (hd & G1 & G2). pose proof (lines_agree lines r1) as A. rewrite G1 in A.
  destruct (r_add_lines r1 lines) as [r|e|] eqn:Er; cbn [base_of] in A; try discriminate. injection A as A.
  exists r. split; [reflexivity|].
  assert (T : told r1 host port scheme) by (unfold told; rewrite B1; cbn; auto).
  destruct (told_lines lines r1 host port scheme r T Er) as (T1 & T2 & T3).
  assert (Hh : h_headers (r_base r) = head_pairs h).
  { rewrite A. destruct (note_headers_spec _ _ _ G2) as ((_ & N2 & _) & _). rewrite N2. reflexivity. }
  rewrite Hh in T1, T2. split; [exact T1|]. split; [exact T2|]. split; [exact T3|].
  intros rest m unread F. rewrite feed_resp, BF_head in F; [|reflexivity|reflexivity|exact Hok].
  change (m_head (parser_for None ign)) with (new_request_hdr ign) in F. erewrite start_request in F; [|reflexivity|exact R]. cbn [bind] in F.
  change (h_headers (set_kind (new_request_hdr ign) (KRequest m0 t0 v0 x0))) with (@nil (bytes * bytes)) in F. cbn [app] in F. rewrite <- Hb, G2 in F. cbn [bind] in F.
  destruct (begin_body gz (head_done (parser_for None ign) h hd) rest) as [m2| |] eqn:E2; try discriminate. cbn [bind] in F.
  pose proof (begin_body_head gz (head_done (parser_for None ign) h hd) rest m2 E2) as Hh2. pose proof (begin_body_mode gz (head_done (parser_for None ign) h hd) rest m2 eq_refl E2) as Hm.
  destruct (base_feed gz m2 rest) as [[m3 t3]| |] eqn:E3; try discriminate. cbn [bind] in F. apply body_core in E3; [|exact Hm].
  assert (K : core (m_head m3) = core hd) by (rewrite E3, Hh2; reflexivity).
  unfold resp in F. cbn [fst snd] in F. destruct (continue_dec m3) as [[_ C]|_]; [exfalso|injection F as <- <-; rewrite K, A; reflexivity].
  unfold status in C. assert (K1 : h_kind (m_head m3) = h_kind hd) by (change (h_kind (core (m_head m3)) = h_kind (core hd)); rewrite K; reflexivity).
  destruct (note_headers_spec _ _ _ G2) as ((N1 & _) & _). rewrite K1, N1 in C. change (h_kind (set_headers (r_base r1) (head_pairs h))) with (h_kind (r_base r1)) in C. rewrite Hb in C. discriminate C.
Qed.
End C58.

(** A request for an absolute URL without a path cannot be written decoded. *)
Theorem C58_url_without_path_not_writable : forall gz unzlib ungzip ign h method u version rest m unread,
  head_ok h -> length_readable (ignored ign) (head_pairs h) ->
  hd_start h = method ++ [SP] ++ url_text u ++ [SP] ++ version ->
  ~ In SP method -> url_ok u -> ~ In SP (url_text u) -> version <> [] -> no_ws_end version -> upper method <> B "CONNECT" ->
  u_path u = [] ->
  feed gz (parser_for None ign) (head_text h ++ rest) = Ret (m, unread) ->
  decoded_message unzlib ungzip m = Raise ETypeError.
Proof.
  intros gz unzlib ungzip ign h method u version rest m unread Hok Hl Hs H1 H2 H3 H4 H5 H6 Hp F.
  pose proof (request_url method u version H1 H2 H3 H4 H5 H6) as R. rewrite Hp in R.
  assert (S : start_says None (hd_start h) (KRequest method (B "/") version true)) by (rewrite Hs; constructor; exact R).
  assert (N : code_of (KRequest method (B "/") version true) <> Some 100%Z) by discriminate.
  destruct (C43_headers_in_order gz None ign h _ Hok S rest m unread N Hl F) as (K & _).
  unfold decoded_message, decoded_start. rewrite K. reflexivity.
Qed.

(** ** the url attribute *)
(** the characters of a value *)
Definition plain (v : pyval) : bytes := match v with PText s => s | PBytes s => s | PInt z => dec_Z z end.
Lemma repr_byte_length q c : 1 <= List.length (repr_byte q c).
Proof. unfold repr_byte. repeat match goal with |- context [if ?b then _ else _] => destruct b end; cbn; lia. Qed.
Lemma repr_length s : List.length s + 3 <= List.length (repr_bytes s).
Proof.
  unfold repr_bytes. cbv zeta. generalize (if existsb (N.eqb 39) s && negb (existsb (N.eqb 34) s) then 34%N else 39%N). intro q.
  rewrite !app_length. cbn [List.length].
  assert (H : List.length s <= List.length (concat (map (repr_byte q) s))).
  { induction s as [|c s IH]; [cbn; lia|]. cbn [map concat List.length]. rewrite app_length. pose proof (repr_byte_length q c). lia. }
  lia.
Qed.
Lemma show_length v : List.length (plain v) <= List.length (show v).
Proof. destruct v as [s|s|z]; cbn [plain show]; try lia. pose proof (repr_length s). lia. Qed.
(** On Python 3 the url of a request whose host and target have been read is never the
    URL, with or without the port: byte strings are shown as b'...' *)
Theorem C58_url_is_never_the_url : forall (r : rhdr) (host target : bytes),
  r_host r = PBytes host -> r_target r = PBytes target ->
  r_url r <> plain (r_scheme r) ++ B "://" ++ host ++ target /\
  r_url r <> plain (r_scheme r) ++ B "://" ++ host ++ B ":" ++ plain (r_port r) ++ target.
Proof.
  intros r host target Hh Ht. unfold r_url. rewrite Hh, Ht. cbn [show].
  pose proof (show_length (r_scheme r)) as L1. pose proof (show_length (r_port r)) as L2.
  pose proof (repr_length host) as L3. pose proof (repr_length target) as L4.
  destruct (_ || _) eqn:E.
  - assert (P : plain (r_port r) = B "80").
    { apply Bool.orb_true_iff in E as [E|E]; apply Bool.andb_true_iff in E as [_ E]; destruct (r_port r) as [?|?|z]; try discriminate; cbn in E; apply Z.eqb_eq in E; subst z; reflexivity. }
    split; intro X; apply (f_equal (@List.length N)) in X; rewrite ?P, !app_length in X; change (List.length (B "80")) with 2 in X; change (List.length (B ":")) with 1 in X; lia.
  - split; intro X; apply (f_equal (@List.length N)) in X; rewrite !app_length in X; change (List.length (B ":")) with 1 in X; lia.
Qed.

(** What it is instead: scheme, host, port and target as '%s' shows them ([show]: a byte string as b'...'), the port
    left out only when it is the number 80 and the scheme is still the text it was initialised with, so never after an
    absolute URL. *)
Definition default_port (scheme port : pyval) : Prop :=
  (scheme = PText (B "http") \/ scheme = PText (B "https")) /\ port = PInt 80.
Lemma url_cases r : (default_port (r_scheme r) (r_port r) -> r_url r = show (r_scheme r) ++ B "://" ++ show (r_host r) ++ show (r_target r)) /\
  (~ default_port (r_scheme r) (r_port r) -> r_url r = show (r_scheme r) ++ B "://" ++ show (r_host r) ++ B ":" ++ show (r_port r) ++ show (r_target r)).
Proof.
  unfold r_url. split.
  - intros [[-> | ->] ->]; reflexivity.
  - intro H. destruct (_ || _) eqn:E; [|reflexivity]. exfalso. apply H.
    assert (T : forall t v, is_text t v = true -> v = PText t) by (intros t [s|s|z] X; try discriminate; apply bytes_eqb_eq in X; congruence).
    assert (I : forall v, is_int 80 v = true -> v = PInt 80) by (intros [s|s|z] X; try discriminate; apply Z.eqb_eq in X; congruence).
    apply Bool.orb_true_iff in E as [E|E]; apply Bool.andb_true_iff in E as [E1 E2]; apply T in E1; apply I in E2; split; auto.
Qed.
Theorem C58_url_shown : forall ign h host port scheme method target version text,
  head_ok h -> line_says (hd_start h) host port scheme -> request_line (hd_start h) method target version text -> length_readable (ignored ign) (head_pairs h) ->
  let host' := says_host host (head_pairs h) in let port' := says_port port (head_pairs h) in
  let target' := if text then PText target else PBytes target in
  exists r, r_head (new_rhdr ign) (head_lines h) = Ret r /\ r_target r = target' /\
  (default_port scheme port' -> r_url r = show scheme ++ B "://" ++ show host' ++ show target') /\
  (~ default_port scheme port' -> r_url r = show scheme ++ B "://" ++ show host' ++ B ":" ++ show port' ++ show target').
Proof.
  intros ign h host port scheme method target version text Hok Hs Hl Hlen host' port' target'.
  destruct (C58_request_attributes (fun _ => Raise EOSError) ign h host port scheme Hok Hs Hlen) as (r & E & H1 & H2 & H3 & _).
  exists r. split; [exact E|].
  assert (K : h_kind (r_base r) = KRequest method target version text).
  { unfold r_head, head_lines in E. cbn [app] in E.
    destruct (line_says_start ign (hd_start h) (hd_start_crlf h) host port scheme Hs) as (r1 & E1 & _ & _ & _ & (m0 & t0 & v0 & x0 & R & Hb)).
    rewrite E1 in E. cbn [bind] in E.
    assert (D : KRequest m0 t0 v0 x0 = KRequest method target version text).
    { pose proof (start_request [] [] [] false (hd_start h) true m0 t0 v0 x0 (new_request_hdr ign) eq_refl R) as A1.
      pose proof (start_request [] [] [] false (hd_start h) true _ _ _ _ (new_request_hdr ign) eq_refl Hl) as A2. rewrite A1 in A2. injection A2 as -> -> -> ->. reflexivity. }
    match type of E with r_add_lines _ ?ls = _ => pose proof (lines_agree ls r1) as A end. rewrite E in A. cbn [base_of] in A.
    assert (G : forall ls h0 h1, add_lines h0 ls = Ret h1 -> h_kind h1 = h_kind h0).
    { clear. induction ls as [|l ls IH]; intros h0 h1 X; cbn [add_lines] in X; [injection X as <-; reflexivity|].
      destruct (add_header_line h0 l) as [h2| |] eqn:E2; cbn [bind] in X; try discriminate. rewrite (IH _ _ X). unfold add_header_line in E2.
      destruct (is_folded l); [destruct (fold_last _ _) as [l2| |]; cbn [bind] in E2; try discriminate; injection E2 as <-; reflexivity|].
      destruct (in_list l NEWLINES); [apply note_headers_spec in E2 as ((K & _) & _); exact K|].
      destruct (split_field l); cbn [bind] in E2; try discriminate. injection E2 as <-. reflexivity. }
    rewrite (G _ _ _ (eq_sym A)), Hb. exact D. }
  assert (Ht : r_target r = target').
  { unfold r_target, target'. rewrite K. assert (Hv : version <> []) by (clear - Hl; destruct Hl; assumption).
    destruct method; [|reflexivity]. destruct target; [|reflexivity]. destruct version; [contradiction|reflexivity]. }
  split; [exact Ht|]. destruct (url_cases r) as [U1 U2]. rewrite H1, H2, H3, Ht in *. split; assumption.
Qed.
(** before a start line is read *)
Theorem C58_url_at_first : forall ign, r_url (new_rhdr ign) = B "http://".
Proof. intro ign. reflexivity. Qed.
Example C58_shown_case : exists r, r_head (new_rhdr []) [B "GET http://www.example.com/a HTTP/1.1" ++ CRLF; CRLF] = Ret r /\ r_scheme r = PBytes (B "http") /\ r_port r = PInt 80 /\
  r_url r = B "b'http'://b'www.example.com':80b'/a'".
Proof. eexists. split; [vm_compute; reflexivity|]. split; [reflexivity|]. split; [reflexivity|]. vm_compute. reflexivity. Qed.

(** ** the hypotheses are met by non-trivial cases *)
Definition demo_request : msg_head :=
  mkhead (B "GET HTTPS://www.example.com:8443 HTTP/1.1") true
    [mkfield (B "Connection") (B " Close") true []; mkfield (B "HOST") (B " a.example:81") true [(B "	23", true)];
     mkfield (B "connection") (B "x, Keep-Alive") false []; mkfield (B "Host") (B "b.example") true []] true.
Definition demo_url : abs_url := mkurl (B "HTTPS") (B "www.example.com") (Some (B "8443")) [].
Ltac notin := vm_compute; intuition discriminate.
Lemma demo_request_ok : head_ok demo_request.
Proof.
  split; [notin|]. split; [discriminate|]. split; [discriminate|].
  repeat (constructor; [split; [notin|split; [notin|split; [notin|split; [reflexivity|]]]]|]); repeat constructor; try notin.
Qed.
Lemma demo_url_ok : url_ok demo_url.
Proof.
  split; [right; reflexivity|]. split; [discriminate|]. split; [notin|]. split; [notin|]. split; [split; [discriminate|reflexivity]|].
  split; [left; reflexivity|notin].
Qed.
Lemma http11_end : no_ws_end (B "HTTP/1.1").
Proof. intros t c E. change (B "HTTP/1.1") with (B "HTTP/1." ++ [49%N]) in E. apply app_inj_tail in E as [_ <-]. reflexivity. Qed.
Example C58_case : exists r,
  r_head (new_rhdr []) (head_lines demo_request) = Ret r /\
  r_host r = PBytes (B "b.example") /\ r_port r = PBytes (B "81 23") /\ r_scheme r = PBytes (B "HTTPS") /\
  r_target r = PText (B "/").
Proof.
  assert (S : line_says (hd_start demo_request) (PBytes (B "www.example.com")) (PInt 8443) (PBytes (B "HTTPS"))).
  { change (hd_start demo_request) with (B "GET" ++ [SP] ++ url_text demo_url ++ [SP] ++ B "HTTP/1.1").
    apply (line_url (B "GET") demo_url (B "HTTP/1.1")); [notin|exact demo_url_ok|notin|discriminate|apply http11_end|discriminate]. }
  destruct (C58_request_attributes (fun _ => Raise EOSError) [] demo_request _ _ _ demo_request_ok S) as (r & E & H1 & H2 & H3 & _); [intros v Hv; discriminate Hv|].
  exists r. split; [exact E|]. split; [exact H1|]. split; [exact H2|]. split; [exact H3|].
  vm_compute in E. injection E as <-. reflexivity.
Qed.
Example C58_url_case : exists r,
  r_head (new_rhdr []) [B "GET /it's HTTP/1.1" ++ CRLF; B "Host: www.example.com" ++ CRLF; CRLF] = Ret r /\
  r_host r = PBytes (B "www.example.com") /\ r_target r = PBytes (B "/it's") /\
  r_url r = B "http://b'www.example.com'b" ++ [34%N] ++ B "/it's" ++ [34%N].
Proof. eexists. split; [vm_compute; reflexivity|]. split; [reflexivity|]. split; reflexivity. Qed.
Example C57_case : says_keep_alive [] (head_pairs demo_request) = true /\
  exists m, feed (fun _ => Raise EOSError) (parser_for None []) (head_text demo_request) = Ret (m, []) /\ h_keep_alive (m_head m) = true.
Proof. split; [vm_compute; reflexivity|]. eexists. split; [vm_compute; reflexivity|reflexivity]. Qed.
