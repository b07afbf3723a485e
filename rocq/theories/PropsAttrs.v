(** Property C90: what the attributes of a message are at any time, also after calls that raised. *)
From Verif Require Export AttrsFacts PropsRequest HttpAnyFacts.
From Verif Require Import RegexFacts.
From Coq Require Import String List ZArith Lia.
Open Scope list_scope.

(** ** Specification.  Lines are given without their LF; white space at the end of a line does not count. *)
Definition two_words (l a b : bytes) : Prop := trims_to l (a ++ [SP] ++ b) /\ ~ In SP a /\ ~ In SP b.
Definition three_words (l a b c : bytes) : Prop := trims_to l (a ++ [SP] ++ b ++ [SP] ++ c) /\ ~ In SP a /\ ~ In SP b.
(** an absolute http(s) URL: scheme, host, port, path *)
Definition absolute_url (target scheme host : bytes) (port : option bytes) (path : bytes) : Prop :=
  target = scheme ++ B "://" ++ host ++ (match port with Some p => [COLON] ++ p | None => [] end) ++ path /\
  (lower scheme = B "http" \/ lower scheme = B "https") /\ host <> [] /\ ~ In COLON host /\ ~ In 47%N host /\
  match port with
  | Some p => p <> [] /\ forallb is_digit p = true /\ (forall c t, path = c :: t -> is_digit c = false)
  | None => path = [] \/ (exists t, path = 47%N :: t) \/ (exists t, path = COLON :: t /\ forall c t', t = c :: t' -> is_digit c = false)
  end.
(** a request line that is refused although it has three words *)
Definition refused_connect (l m t v : bytes) : Prop :=
  three_words l m t v /\ upper m = B "CONNECT" /\ (forall h p, t = h ++ [COLON] ++ p -> In COLON h \/ In COLON p).
(** the attributes after lines that did not start a request: blank ones and refused ones *)
Inductive before_request : list bytes -> attrs -> Prop :=
| br_new : before_request [] (ARequest (PText []) (PText []) (PText []) (PText []) (PInt 80) (PText (B "http")))
| br_unsplit lines a l : before_request lines a -> (forall m t v, ~ three_words l m t v) -> before_request (lines ++ [l]) a
| br_connect lines a l m t v : before_request lines a -> refused_connect l m t v ->
    before_request (lines ++ [l]) (ARequest (PBytes m) (PBytes t) (PBytes v) (PText []) (PInt 80) (PText (B "http"))).
(** what an accepted request line says: method, target, version, host, port, scheme *)
Inductive request_says : bytes -> pyval -> pyval -> pyval -> pyval -> pyval -> pyval -> Prop :=
| rq_connect l m h p v : three_words l m (h ++ [COLON] ++ p) v -> upper m = B "CONNECT" -> ~ In COLON h -> ~ In COLON p ->
    request_says l (PBytes m) (PBytes (h ++ [COLON] ++ p)) (PBytes v) (PBytes h) (PBytes p) (PText (B "http"))
| rq_url l m t v scheme host port path : three_words l m t v -> upper m <> B "CONNECT" -> absolute_url t scheme host port path ->
    request_says l (PBytes m) (match path with [] => PText (B "/") | _ => PBytes path end) (PBytes v)
      (PBytes host) (PInt (match port with Some p => dec_value p | None => 80 end)) (PBytes scheme)
| rq_plain l m t v : three_words l m t v -> upper m <> B "CONNECT" -> (forall scheme host port path, ~ absolute_url t scheme host port path) ->
    request_says l (PBytes m) (PBytes t) (PBytes v) (PText []) (PInt 80) (PText (B "http")).
(** a status line: version, code, phrase *)
Definition status_words (l v c p : bytes) : Prop := (two_words l v c /\ p = []) \/ three_words l v c p.
Inductive before_response : list bytes -> attrs -> Prop :=
| bs_new : before_response [] (AResponse (PBytes (B "HTTP/1.1")) (PInt 0) (PText (B "Empty Response")))
| bs_unsplit lines a l : before_response lines a -> (forall v c p, ~ status_words l v c p) -> before_response (lines ++ [l]) a
| bs_code lines a l v c p : before_response lines a -> status_words l v c p -> py_int 10 c = None ->
    before_response (lines ++ [l]) (AResponse (PBytes v) (PBytes c) (PBytes p)).
Definition whole (lines : list bytes) : bytes := concat (map (fun l => l ++ [LF]) lines).

(** ** URLs *)
Lemma url_full target scheme host port path : no_lf target -> absolute_url target scheme host port path ->
  re_match url_rx target = Some ((1, path) :: (5, host ++ match port with Some p => [COLON] ++ p | None => [] end) ::
    (match port with Some p => [(4, p)] | None => [] end) ++ [(3, host); (2, scheme)]).
Proof.
  intros Hlf (-> & Hs & Hh & Hc & Hsl & Hp). unfold re_match, url_rx.
  assert (Hlfp : no_lf path) by (intro X; apply Hlf; do 4 (apply in_or_app; right); exact X).
  assert (Path : forall pre g, star_greedy dot pre path (fun pre' _ => Some ((1, rev (firstn (List.length pre' - List.length pre) pre')) :: g)) = Some ((1, path) :: g)).
  { intros pre g. rewrite <- (app_nil_r path) at 1. apply star_greedy_stop; [|left; reflexivity|rewrite captured; reflexivity].
    apply forallb_forall. intros c Hin. unfold dot. destruct (N.eqb_spec c 10) as [-> |]; [contradiction|reflexivity]. }
  rewrite rm_seq. change (B "://" ++ ?x) with (58%N :: ([47; 47]%N ++ x)).
  apply (scheme_match scheme [] _ [] _ _ Hs).
  change (58%N :: ([47; 47]%N ++ ?x)) with (B "://" ++ x). cbv beta. rewrite rm_seq, rstr_match. set (pre := rev (B "://") ++ rev scheme ++ []). cbn [rmatch].
  apply (plus_match no_colon_slash host pre); [exact Hh|apply no_colon_slash_all; assumption| |].
  { destruct port as [p|]; [right; exists COLON, (p ++ path); split; reflexivity|]. cbn [app].
    destruct Hp as [-> |[[t ->]|(t & -> & _)]]; [left; reflexivity|right; exists 47%N, t; split; reflexivity|right; exists COLON, t; split; reflexivity]. }
  cbv beta. rewrite captured. unfold ropt. destruct port as [p|].
  - destruct Hp as (H1 & H2 & H3). cbn [rmatch app lit]. rewrite N.eqb_refl.
    erewrite (plus_match is_digit p (COLON :: rev host ++ pre)); [reflexivity|exact H1|exact H2| |].
    { destruct path as [|c t]; [auto|]. right. exists c, t. split; [reflexivity|]. apply (H3 c t eq_refl). }
    cbn beta. rewrite captured.
    assert (E : rev (firstn (List.length (rev p ++ COLON :: rev host ++ pre) - List.length pre) (rev p ++ COLON :: rev host ++ pre)) = host ++ COLON :: p).
    { replace (rev p ++ COLON :: rev host ++ pre) with (rev (host ++ COLON :: p) ++ pre).
      - apply captured.
      - rewrite rev_app_distr. cbn [rev]. rewrite <- !app_assoc. reflexivity. }
    rewrite E. cbn [rmatch]. rewrite Path. reflexivity.
  - cbn [app].
    assert (E : forall K : bytes -> bytes -> groups -> option groups, forall pre g, rmatch (RSeq (lit 58) (RGrp 4 (rplus true is_digit))) pre path g K = None).
    { intros K pre0 g0. cbn [rmatch lit rplus]. destruct Hp as [-> |[[t ->]|(t & -> & H)]]; [reflexivity|reflexivity|].
      rewrite N.eqb_refl. destruct t as [|d t]; [reflexivity|]. rewrite (H d t eq_refl). reflexivity. }
    rewrite rm_alt, E. cbn [rmatch]. rewrite captured, Path, app_nil_r. reflexivity.
Qed.
Lemma url_some target g : re_match url_rx target = Some g -> exists scheme host port path, absolute_url target scheme host port path.
Proof.
  intro H. apply url_sound in H as (path & scheme & host & r & -> & Hs & Hh & Hc & Hsl & Hr & Ha). exists scheme, host.
  destruct Ha as [p q H1 H2 H3|r H].
  - exists (Some p), q. unfold absolute_url. rewrite <- app_assoc. auto 10.
  - exists None, r. unfold absolute_url. cbn [app]. split; [reflexivity|]. do 4 (split; [assumption|]).
    destruct Hr as [-> |(c & t & -> & [-> | ->])]; [auto| |eauto]. right. right. exists t. split; [reflexivity|]. intros c t' ->. exact (H c t' eq_refl).
Qed.

(** ** lines *)
Lemma ended_line l : ended l -> exists x, l = x ++ [LF] /\ no_lf x.
Proof. intros (x & H). exists x. exact H. Qed.
Lemma no_words_blank l : in_list (l ++ [LF]) NEWLINES = true -> trims_to l [].
Proof.
  intro H. apply in_list_In in H. assert (E : l = [] \/ l = [CR]).
  { destruct H as [H|[H|[]]].
    - right. change CRLF with ([CR] ++ [LF]) in H. apply app_inj_tail in H as [<- _]. reflexivity.
    - left. change [LF] with ([] ++ [LF]) in H at 1. apply app_inj_tail in H as [<- _]. reflexivity. }
  exists l. split; [reflexivity|]. split; [destruct E as [-> | ->]; reflexivity|]. intros t c X. destruct t; discriminate.
Qed.
Lemma trims_unique l s t : trims_to l s -> trims_to l t -> s = t.
Proof. intros Hs Ht. apply trimmed_rstrip in Hs, Ht. congruence. Qed.
(** the cases of a line: fewer than two words, two, or three *)
Lemma word_cases l : (split_max 2 SP (rstrip (l ++ [LF])) = [rstrip (l ++ [LF])] /\ ~ In SP (rstrip (l ++ [LF])) /\ trims_to l (rstrip (l ++ [LF]))) \/
  (exists a b, two_words l a b /\ split_max 2 SP (rstrip (l ++ [LF])) = [a; b]) \/
  (exists a b c, three_words l a b c /\ split_max 2 SP (rstrip (l ++ [LF])) = [a; b; c]).
Proof.
  destruct (trimmed_total l) as [t Ht]. rewrite (trimmed_rstrip _ _ Ht).
  destruct (split_max_cases t) as [E|[(a & b & E0 & Ha & Hb & E)|(a & b & c & E0 & Ha & Hb & E)]].
  - left. split; [exact E|]. split; [|exact Ht]. destruct (split_once SP t) as [[a x]|] eqn:Es; [|apply split_once_none in Es; exact Es].
    exfalso. cbn [split_max] in E. rewrite Es in E. destruct (split_once SP x) as [[b c]|]; discriminate.
  - right. left. exists a, b. subst t. split; [split; auto|exact E].
  - right. right. exists a, b, c. subst t. split; [split; auto|exact E].
Qed.
Lemma three_split l a b c : three_words l a b c -> split_max 2 SP (rstrip (l ++ [LF])) = [a; b; c].
Proof. intros (Ht & Ha & Hb). rewrite (trimmed_rstrip _ _ Ht). apply split_three; assumption. Qed.
Lemma two_split l a b : two_words l a b -> split_max 2 SP (rstrip (l ++ [LF])) = [a; b].
Proof. intros (Ht & Ha & Hb). rewrite (trimmed_rstrip _ _ Ht). apply split_two; assumption. Qed.
Lemma blank_words l (a : Prop) : in_list (l ++ [LF]) NEWLINES = true -> forall x y z, three_words l x y z \/ two_words l x y -> a.
Proof.
  intros H x y z W. apply no_words_blank in H. assert (X : [] = x ++ [SP] ++ y ++ [SP] ++ z \/ [] = x ++ [SP] ++ y).
  { destruct W as [(W & _)|(W & _)]; [left|right]; exact (trims_unique _ _ _ H W). }
  destruct X as [X|X]; destruct x; discriminate.
Qed.
Lemma one_colon t : split_all COLON t <> [] -> (exists h p, split_all COLON t = [h; p] /\ t = h ++ [COLON] ++ p /\ ~ In COLON h /\ ~ In COLON p) \/
  ((forall h p, t = h ++ [COLON] ++ p -> In COLON h \/ In COLON p) /\ forall h p, split_all COLON t <> [h; p]).
Proof.
  intros _. assert (D : (exists h p, split_all COLON t = [h; p]) \/ forall h p, split_all COLON t <> [h; p]).
  { destruct (split_all COLON t) as [|h [|p [|q r]]]; [right; discriminate|right; discriminate|left; eauto|right; discriminate]. }
  destruct D as [(h & p & E)|N].
  - left. exists h, p. split; [exact E|]. apply split_all_pair. exact E.
  - right. split; [|exact N]. intros h p ->. destruct (in_dec N.eq_dec COLON h) as [|Nh]; [auto|]. destruct (in_dec N.eq_dec COLON p) as [|Np]; [auto|].
    destruct (N h p). apply split_all_two; assumption.
Qed.
Lemma words_no_lf l a b c : no_lf l -> three_words l a b c -> no_lf b.
Proof. intros Hl (Ht & _). apply (sub_no_lf l _ (a ++ [SP]) b ([SP] ++ c) Hl Ht). rewrite <- app_assoc. reflexivity. Qed.

(** ** requests *)
Definition request_host_port (a : attrs) : Prop := exists m t v, a = ARequest m t v (PText []) (PInt 80) (PText (B "http")).
Lemma before_request_keeps lines a : before_request lines a -> request_host_port a.
Proof. intro H. induction H; [exists (PText []), (PText []), (PText []); reflexivity|assumption|exists (PBytes m), (PBytes t), (PBytes v); reflexivity]. Qed.
Lemma request_skip lines a l : before_request lines a -> skipped None (l ++ [LF]) -> before_request (lines ++ [l]) (a_start_line a (l ++ [LF])).
Proof.
  intros Hb [_ Hs]. destruct (before_request_keeps _ _ Hb) as (m0 & t0 & v0 & ->). unfold a_start_line.
  destruct Hs as [Hs|[e Hs]].
  { pose proof (no_words_blank _ Hs) as T. rewrite (trimmed_rstrip _ _ T). cbn. apply br_unsplit; [exact Hb|]. intros m t v W. exact (blank_words l False Hs m t v (or_introl W)). }
  unfold set_start_line, start_hdr, new_request_hdr in Hs. cbn [h_kind] in Hs.
  destruct (word_cases l) as [(E & N & T)|[(x & y & W & E)|(m & t & v & W & E)]]; rewrite E in *.
  - apply br_unsplit; [exact Hb|]. intros m t v W. apply three_split in W. congruence.
  - apply br_unsplit; [exact Hb|]. intros m t v W'. apply three_split in W'. congruence.
  - destruct (bytes_eqb (upper m) (B "CONNECT")) eqn:Ec.
    + apply bytes_eqb_eq in Ec. destruct (one_colon t (split_all_ne t)) as [(h & p & E1 & _)|[C1 C2]]; [rewrite E1 in Hs; discriminate|].
      assert (R : refused_connect l m t v) by (split; [exact W|split; [exact Ec|exact C1]]). pose proof (br_connect lines _ l m t v Hb R) as G.
      destruct (split_all COLON t) as [|h [|p [|q r]]] eqn:Es; try exact G. destruct (C2 h p eq_refl).
    + destruct (re_match url_rx t); discriminate.
Qed.
Lemma request_accept l h : no_lf l -> set_start_line (start_hdr None []) (l ++ [LF]) = Ret h ->
  exists m t v ho po s, request_says l m t v ho po s /\ a_start_line request_attrs (l ++ [LF]) = ARequest m t v ho po s.
Proof.
  intros Hl. unfold set_start_line, start_hdr, new_request_hdr, a_start_line, request_attrs. cbn [h_kind].
  destruct (word_cases l) as [(E & N & T)|[(x & y & W & E)|(m & t & v & W & E)]]; rewrite E; try discriminate.
  destruct (bytes_eqb (upper m) (B "CONNECT")) eqn:Ec.
  - apply bytes_eqb_eq in Ec. destruct (one_colon t (split_all_ne t)) as [(ho & p & E1 & -> & H1 & H2)|[C1 C2]].
    + rewrite E1. intros _. do 6 eexists. split; [|reflexivity]. apply rq_connect; assumption.
    + destruct (split_all COLON t) as [|ho [|p [|q r]]] eqn:Es; try discriminate. destruct (C2 ho p eq_refl).
  - apply bytes_eqb_neq in Ec. destruct (re_match url_rx t) as [g|] eqn:Eg; intros _.
    + destruct (url_some _ _ Eg) as (scheme & host & port & path & U). pose proof U as (_ & _ & _ & _ & _ & P).
      rewrite (url_full t scheme host port path (words_no_lf _ _ _ _ Hl W) U) in Eg. injection Eg as <-.
      pose proof (rq_url l m t v scheme host port path W Ec U) as R.
      destruct port as [p|]; unfold group; cbn [app group_opt Nat.eqb].
      * destruct P as (P1 & P2 & _). destruct p as [|c p]; [contradiction|]. rewrite PropsRequest.py_int_digits by assumption.
        do 6 eexists. split; [exact R|]. destruct path; reflexivity.
      * do 6 eexists. split; [exact R|]. destruct path; reflexivity.
    + do 6 eexists. split; [|reflexivity]. apply rq_plain; [exact W|exact Ec|]. intros scheme host port path U.
      rewrite (url_full t scheme host port path (words_no_lf _ _ _ _ Hl W) U) in Eg. discriminate.
Qed.
(** the Host fields *)
Lemma fold_hosts l : forall m t v h p s, fold_left a_add_header l (ARequest m t v h p s) = ARequest m t v (says_host h l) (says_port p l) s.
Proof.
  induction l as [|nv l IH] using rev_ind; intros m t v h p s; [reflexivity|]. etransitivity; [apply fold_left_app|]. rewrite IH. cbn [fold_left a_add_header].
  unfold says_host, says_port. rewrite host_values_app, host_values_one.
  destruct (bytes_eqb (lower (fst nv)) (B "host")) eqn:E; rewrite ?app_nil_r; [|reflexivity].
  rewrite rev_app_distr. cbn [rev app find]. rewrite colon_split. destruct (split_once COLON (snd nv)) as [[x y]|] eqn:Es; rewrite ?Es; reflexivity.
Qed.
Lemma skipped_lines kind lines : Forall (skipped kind) lines -> exists ls, lines = map (fun l => l ++ [LF]) ls /\ Forall no_lf ls /\ Forall (fun l => skipped kind (l ++ [LF])) ls.
Proof.
  induction 1 as [|l lines H _ (ls & -> & H1 & H2)]; [exists []; auto|]. pose proof H as [(x & -> & Hx) _]. exists (x :: ls). repeat split; constructor; assumption.
Qed.
Lemma request_lines ls : Forall (fun l => skipped None (l ++ [LF])) ls -> before_request ls (fold_left a_start_line (map (fun l => l ++ [LF]) ls) request_attrs).
Proof.
  induction ls as [|l ls IH] using rev_ind; intro H; [exact br_new|]. apply Forall_app in H as [H1 H2]. inversion H2; subst. rewrite map_app, fold_left_app. cbn [map fold_left].
  apply request_skip; auto.
Qed.

(** a request is never preceded by anything *)
Lemma request_kind earlier m a : waiting None earlier m a \/ begun None earlier m a -> exists x y z w, h_kind (m_head m) = KRequest x y z w.
Proof.
  intros [(_ & K & _)|(_ & lines & line & rest & h & _ & _ & _ & _ & E & K & _)].
  - rewrite K. cbn. eauto.
  - rewrite K. unfold set_start_line, start_hdr, new_request_hdr in E. cbn [h_kind] in E. destruct (split_max 2 SP (rstrip line)) as [|p [|q [|r [|? ?]]]]; try discriminate.
    destruct (bytes_eqb (upper p) (B "CONNECT")).
    + destruct (split_all COLON q) as [|x [|y [|? ?]]]; try discriminate. injection E as <-. cbn. eauto.
    + destruct (re_match url_rx q) as [g|]; injection E as <-; [|cbn; eauto]. destruct (group 1 g); cbn; eauto.
Qed.
Lemma request_interim gz acts : forall m a outs m' a', inv m -> AttrsFacts.told None m a -> m_interim m = [] -> a_run gz m a acts = (outs, m', a') -> ~ In Diverge outs -> m_interim m' = [].
Proof.
  induction acts as [|c acts IH]; intros m a outs m' a' Hi T I0 E N; cbn [a_run] in E; [injection E as <- <- <-; exact I0|].
  destruct (a_does gz m a c) as [[o m1] a1] eqn:E1.
  assert (G : o <> Diverge -> inv m1 /\ AttrsFacts.told None m1 a1 /\ m_interim m1 = []).
  { intro Ho. assert (R : a_run gz m a [c] = ([o], m1, a1)) by (cbn [a_run]; rewrite E1; destruct o; try reflexivity; contradiction).
    destruct (told_run gz None [c] m a [o] m1 a1 Hi T R) as [I1 T1]; [intros [X|[]]; contradiction|]. split; [exact I1|]. split; [exact T1|].
    destruct c as [text|]; cbn [a_does] in E1.
    - destruct T as (earlier & _ & T). destruct (request_kind _ _ _ T) as (x & y & z & w & K). unfold a_feed in E1. rewrite K in E1.
      pose proof (x_base_interim gz m text) as X. rewrite <- (a_base_msg gz m a text), E1 in X. cbn [fst snd] in X. congruence.
    - injection E1 as <- <- <-. destruct (close_parts m) as (_ & _ & _ & C & _). congruence. }
  destruct o as [t|e|].
  - destruct (a_run gz m1 a1 acts) as [[os m2] a2] eqn:E2. injection E as <- <- <-. destruct (G ltac:(discriminate)) as (I1 & T1 & X1). eapply IH; [exact I1|exact T1|exact X1|exact E2|]. intro X. apply N. right. exact X.
  - destruct (a_run gz m1 a1 acts) as [[os m2] a2] eqn:E2. injection E as <- <- <-. destruct (G ltac:(discriminate)) as (I1 & T1 & X1). eapply IH; [exact I1|exact T1|exact X1|exact E2|]. intro X. apply N. right. exact X.
  - injection E as <- <- <-. exfalso. apply N. left. reflexivity.
Qed.
Lemma not_blank l : in_list (l ++ [LF]) NEWLINES = false -> ~ blank l.
Proof. intros H [-> | ->]; vm_compute in H; discriminate. Qed.

(** ** C90 *)
(** The parser is the one of the other properties. *)
Theorem C90_same_parser : forall gz m a acts, fst (a_run gz m a acts) = alone gz m acts.
Proof. intros. apply a_run_msg. Qed.
(** Whatever is fed in whatever pieces, whether calls raise, and whether close() was called: either no request line
    has been accepted, or one has, and then host and port follow the Host fields read so far. *)
Theorem C90_request_attributes : forall gz ign (acts : list act) outs m a,
  a_run gz (parser_for None ign) (attrs_for None) acts = (outs, m, a) -> ~ In Diverge outs ->
  exists lines a0, Forall no_lf lines /\ before_request lines a0 /\
  ((exists text, get_message m = whole lines ++ text /\ no_lf text /\ headers_complete m = false /\ h_headers (m_head m) = [] /\ a = a0) \/
   (exists line rest method target version host port scheme,
      get_message m = whole lines ++ line ++ [LF] ++ rest /\ no_lf line /\ ~ blank line /\
      request_says line method target version host port scheme /\
      a = ARequest method target version (says_host host (h_headers (m_head m))) (says_port port (h_headers (m_head m))) scheme)).
Proof.
  intros gz ign acts outs m a E N. assert (Hi : inv (parser_for None ign)) by (eapply fresh_inv, parser_fresh).
  pose proof (told_new None ign) as T0. destruct (told_run gz None acts _ _ _ _ _ Hi T0 E N) as [I1 (earlier & He & T)].
  rewrite (He (request_interim gz acts _ _ _ _ _ Hi T0 eq_refl E N)) in T. clear earlier He. destruct T as [(Hm & _ & Hh & lines & L1 & L2 & L3)|(Hm & lines & line & rest & h & B1 & B2 & B3 & B4 & B5 & B6 & B7)].
  - apply skipped_lines in L2 as (ls & -> & H1 & H2). exists ls, a. split; [exact H1|]. split; [rewrite L3; apply request_lines; exact H2|]. left.
    exists (pending m). split; [unfold get_message; rewrite <- (firstn_skipn (m_off m) (m_buf m)), L1; reflexivity|]. destruct I1 as [[[_ Hb] _] _]. split; [exact Hb|].
    split; [unfold headers_complete; destruct Hm as [-> | ->]; reflexivity|]. auto.
  - apply skipped_lines in B2 as (ls & -> & H1 & H2). exists ls, (fold_left a_start_line (map (fun l => l ++ [LF]) ls) request_attrs). split; [exact H1|]. split; [apply request_lines; exact H2|]. right.
    destruct B3 as (x & -> & Hx). destruct (request_accept x h Hx B5) as (me & t & v & ho & po & s & R & A). exists x, rest, me, t, v, ho, po, s.
    split; [unfold get_message; rewrite B1, <- app_assoc; reflexivity|]. split; [exact Hx|]. split; [apply not_blank; exact B4|]. split; [exact R|].
    unfold hosts in B7. rewrite B7. change (attrs_for None) with request_attrs. rewrite A. apply fold_hosts.
Qed.

(** ** responses *)
Lemma before_response_shape lines a : before_response lines a -> exists v c p, a = AResponse v c p.
Proof. intro H. induction H; eauto. Qed.
Lemma response_skip rm lines a l : before_response lines a -> skipped (Some rm) (l ++ [LF]) -> before_response (lines ++ [l]) (a_start_line a (l ++ [LF])).
Proof.
  intros Hb [_ Hs]. destruct (before_response_shape _ _ Hb) as (v0 & c0 & p0 & ->). unfold a_start_line.
  destruct Hs as [Hs|[e Hs]].
  { pose proof (no_words_blank _ Hs) as T. rewrite (trimmed_rstrip _ _ T). cbn. apply bs_unsplit; [exact Hb|].
    intros v c p [[W _]|W]; [exact (blank_words l False Hs v c [] (or_intror W))|exact (blank_words l False Hs v c p (or_introl W))]. }
  unfold set_start_line, start_hdr, new_response_hdr in Hs. cbn [h_kind] in Hs.
  destruct (word_cases l) as [(E & N & T)|[(v & c & W & E)|(v & c & p & W & E)]]; rewrite E in *.
  - apply bs_unsplit; [exact Hb|]. intros v c p [[W _]|W]; [apply two_split in W|apply three_split in W]; congruence.
  - destruct (py_int 10 c) eqn:Ec; [discriminate|]. eapply bs_code; [exact Hb| |exact Ec]. left. auto.
  - destruct (py_int 10 c) eqn:Ec; [discriminate|]. eapply bs_code; [exact Hb| |exact Ec]. right. exact W.
Qed.
Lemma response_accept rm l h : set_start_line (start_hdr (Some rm) []) (l ++ [LF]) = Ret h ->
  exists v c p z, status_words l v c p /\ py_int 10 c = Some z /\ a_start_line response_attrs (l ++ [LF]) = AResponse (PBytes v) (PInt z) (PBytes p).
Proof.
  unfold set_start_line, start_hdr, new_response_hdr, a_start_line, response_attrs. cbn [h_kind].
  destruct (word_cases l) as [(E & N & T)|[(v & c & W & E)|(v & c & p & W & E)]]; rewrite E; try discriminate.
  - destruct (py_int 10 c) as [z|] eqn:Ec; [|discriminate]. intros _. exists v, c, [], z. split; [left; auto|]. auto.
  - destruct (py_int 10 c) as [z|] eqn:Ec; [|discriminate]. intros _. exists v, c, p, z. split; [right; exact W|]. auto.
Qed.
Lemma response_lines rm ls : Forall (fun l => skipped (Some rm) (l ++ [LF])) ls -> before_response ls (fold_left a_start_line (map (fun l => l ++ [LF]) ls) response_attrs).
Proof.
  induction ls as [|l ls IH] using rev_ind; intro H; [exact bs_new|]. apply Forall_app in H as [H1 H2]. inversion H2; subst. rewrite map_app, fold_left_app. cbn [map fold_left].
  apply (response_skip rm); auto.
Qed.
Lemma fold_hosts_response l : forall v c p, fold_left a_add_header l (AResponse v c p) = AResponse v c p.
Proof. induction l as [|nv l IH]; intros v c p; [reflexivity|]. cbn [fold_left a_add_header]. apply IH. Qed.
(** The same of a response.  [earlier] is the text of interim 100 responses, if there were any. *)
Theorem C90_response_attributes : forall gz rm ign (acts : list act) outs m a,
  a_run gz (parser_for (Some rm) ign) (attrs_for (Some rm)) acts = (outs, m, a) -> ~ In Diverge outs ->
  exists earlier lines a0, (got_continue m = false -> earlier = []) /\ Forall no_lf lines /\ before_response lines a0 /\
  ((exists text, get_message m = earlier ++ whole lines ++ text /\ no_lf text /\ headers_complete m = false /\ h_headers (m_head m) = [] /\ a = a0) \/
   (exists line rest version code phrase z,
      get_message m = earlier ++ whole lines ++ line ++ [LF] ++ rest /\ no_lf line /\ ~ blank line /\
      status_words line version code phrase /\ py_int 10 code = Some z /\
      a = AResponse (PBytes version) (PInt z) (PBytes phrase))).
Proof.
  intros gz rm ign acts outs m a E N. assert (Hi : inv (parser_for (Some rm) ign)) by (eapply fresh_inv, parser_fresh).
  pose proof (told_new (Some rm) ign) as T0. destruct (told_run gz (Some rm) acts _ _ _ _ _ Hi T0 E N) as [I1 (earlier & He & T)]. exists earlier.
  assert (He' : got_continue m = false -> earlier = []) by (unfold got_continue; destruct (m_interim m); [auto|discriminate]).
  destruct T as [(Hm & _ & Hh & lines & L1 & L2 & L3)|(Hm & lines & line & rest & h & B1 & B2 & B3 & B4 & B5 & B6 & B7)].
  - apply skipped_lines in L2 as (ls & -> & H1 & H2). exists ls, a. split; [exact He'|]. split; [exact H1|]. split; [rewrite L3; apply (response_lines rm); exact H2|]. left.
    exists (pending m). split; [unfold get_message; rewrite <- (firstn_skipn (m_off m) (m_buf m)), L1, <- app_assoc; reflexivity|]. destruct I1 as [[[_ Hb] _] _]. split; [exact Hb|].
    split; [unfold headers_complete; destruct Hm as [-> | ->]; reflexivity|]. auto.
  - apply skipped_lines in B2 as (ls & -> & H1 & H2). exists ls, (fold_left a_start_line (map (fun l => l ++ [LF]) ls) response_attrs). split; [exact He'|]. split; [exact H1|]. split; [apply (response_lines rm); exact H2|]. right.
    destruct B3 as (x & -> & Hx). destruct (response_accept rm x h B5) as (v & c & p & z & W & Z & A). exists x, rest, v, c, p, z.
    split; [unfold get_message; rewrite B1, <- app_assoc; reflexivity|]. split; [exact Hx|]. split; [apply not_blank; exact B4|]. split; [exact W|]. split; [exact Z|].
    unfold hosts in B7. rewrite B7. change (attrs_for (Some rm)) with response_attrs. rewrite A. apply fold_hosts_response.
Qed.
(** The code is an integer as soon as the head is read, but only then. *)
Corollary C90_code_is_an_integer : forall gz rm ign acts outs m a,
  a_run gz (parser_for (Some rm) ign) (attrs_for (Some rm)) acts = (outs, m, a) -> ~ In Diverge outs -> headers_complete m = true ->
  exists version z phrase, a = AResponse version (PInt z) phrase.
Proof.
  intros gz rm ign acts outs m a E N Hc. destruct (C90_response_attributes gz rm ign acts outs m a E N) as (earlier & lines & a0 & _ & _ & _ & [(text & _ & _ & X & _)|(line & rest & v & c & p & z & _ & _ & _ & _ & _ & ->)]); [congruence|].
  eauto.
Qed.
(** The url of a request at any time, from its attributes: the port is left out only when it is the number 80 and the scheme is still the text
    it was initialised with; byte strings are shown as b'...'. *)
Theorem C90_url : forall method target version host port scheme, let a := ARequest method target version host port scheme in
  (default_port scheme port -> a_url a = Some (show scheme ++ B "://" ++ show host ++ show target)) /\
  (~ default_port scheme port -> a_url a = Some (show scheme ++ B "://" ++ show host ++ B ":" ++ show port ++ show target)).
Proof.
  intros method target version host port scheme a. unfold a, a_url. split.
  - intros [[-> | ->] ->]; reflexivity.
  - intro H. destruct (_ && _) eqn:E; [|rewrite <- !app_assoc; reflexivity]. exfalso. apply H.
    assert (T : forall t v, is_text t v = true -> v = PText t) by (intros t [s|s|z] X; try discriminate; apply bytes_eqb_eq in X; congruence).
    assert (I : forall v, is_int 80 v = true -> v = PInt 80) by (intros [s|s|z] X; try discriminate; apply Z.eqb_eq in X; congruence).
    apply Bool.andb_true_iff in E as [E1 E2]. apply I in E2. apply Bool.orb_true_iff in E1 as [E1|E1]; apply T in E1; split; auto.
Qed.

(** ** concrete cases *)
Definition no_gz : bytes -> outcome bytes := fun _ => Raise EOSError.
(** a refused CONNECT line leaves method, target and version behind, a blank line nothing *)
Example C90_connect_case : exists m, a_run no_gz (parser_for None []) request_attrs [Feed (B "connect a.example HT"); Feed (B "TP/1.1" ++ CRLF); Feed CRLF; Feed (B "GE")] =
  ([Ret []; Raise EValueError; Ret []; Ret []], m, ARequest (PBytes (B "connect")) (PBytes (B "a.example")) (PBytes (B "HTTP/1.1")) (PText []) (PInt 80) (PText (B "http"))) /\
  get_message m = B "connect a.example HTTP/1.1" ++ CRLF ++ CRLF ++ B "GE".
Proof. eexists. split; [vm_compute; reflexivity|reflexivity]. Qed.
(** and then a request line, a Host field, and a header line that is refused *)
Example C90_request_case : exists m, a_run no_gz (parser_for None []) request_attrs
    [Feed (B "connect a.example HTTP/1.1" ++ CRLF); Feed (B "GET HTTPS://u@b.example:88:x HTTP/1.0" ++ CRLF ++ B "HOST: c.example:81"); Feed (CRLF ++ B "	0" ++ CRLF); Feed (B "no colon" ++ CRLF); Close] =
  ([Raise EValueError; Ret []; Ret []; Raise EValueError; Ret []], m,
   ARequest (PBytes (B "GET")) (PBytes (B ":x")) (PBytes (B "HTTP/1.0")) (PBytes (B "c.example")) (PBytes (B "81 0")) (PBytes (B "HTTPS"))) /\
  headers_complete m = false.
Proof. eexists. split; [vm_compute; reflexivity|reflexivity]. Qed.
(** a refused status line leaves a byte string as the code *)
Example C90_response_case : exists m1 m2,
  a_run no_gz (parser_for (Some (B "GET")) []) response_attrs [Feed (B "ICY yes all right" ++ CRLF)] = ([Raise EValueError], m1, AResponse (PBytes (B "ICY")) (PBytes (B "yes")) (PBytes (B "all right"))) /\
  a_run no_gz (parser_for (Some (B "GET")) []) response_attrs [Feed (B "ICY yes all right" ++ CRLF); Feed (B "HTTP/1.0  2 OK" ++ CRLF); Feed (B "HTTP/1.0 +2_00" ++ CRLF ++ CRLF)] =
    ([Raise EValueError; Raise EValueError; Ret []], m2, AResponse (PBytes (B "HTTP/1.0")) (PInt 200) (PBytes [])) /\ headers_complete m2 = true.
Proof. do 2 eexists. split; [vm_compute; reflexivity|]. split; [vm_compute; reflexivity|reflexivity]. Qed.
