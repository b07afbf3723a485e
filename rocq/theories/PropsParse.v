(** C09 - C13, C23, C24: what the parser does with unusual input. *)
From Verif Require Export PropsCut.
From Coq Require Import String List.
Open Scope list_scope.

(** ** vfind *)
Definition junk_errors (ls : list bytes) : list perr := map ErrIgnored (filter (fun l => negb (blank_line l)) ls).
Lemma blank_text_line l : blank_text l = blank_line l. Proof. reflexivity. Qed.
Lemma vfind_hit pre : forall errs l t p v num nl,
  Forall (fun x => version_parts x = None) pre -> List.length errs + List.length (junk_errors pre) <= 5 ->
  version_parts l = Some (p, v, num, nl) ->
  vfind (pre ++ l :: t) errs = inr (p, v, num, nl, errs ++ junk_errors pre, List.length (concat pre), l, t).
Proof.
  induction pre as [|x pre IH]; intros errs l t p v num nl Hp Hj Hl; cbn [app vfind].
  - rewrite Hl. cbn. rewrite app_nil_r. reflexivity.
  - inversion Hp as [|? ? Hx Hp']; subst. rewrite Hx. unfold junk_errors in *. cbn [filter map concat] in *.
    destruct (blank_line x); cbn [negb] in *.
    + rewrite (IH errs l t p v num nl Hp' Hj Hl), app_length. reflexivity.
    + cbn [map List.length] in Hj. rewrite app_length. cbn [List.length].
      destruct (Nat.ltb_spec bad_lines (List.length errs + 1)) as [Hb|Hb]; [unfold bad_lines in Hb; lia|].
      rewrite (IH (errs ++ [ErrIgnored x]) l t p v num nl Hp'); [|rewrite app_length; cbn; lia|exact Hl].
      rewrite app_length. cbn [map]. rewrite <- app_assoc. reflexivity.
Qed.
Lemma vfind_inv ls : forall errs p v num nl e n l t, vfind ls errs = inr (p, v, num, nl, e, n, l, t) ->
  List.length errs <= 5 ->
  exists pre, ls = pre ++ l :: t /\ Forall (fun x => version_parts x = None) pre /\
    List.length errs + List.length (junk_errors pre) <= 5 /\ version_parts l = Some (p, v, num, nl).
Proof.
  induction ls as [|x ls IH]; intros errs p v num nl e n l t H He; cbn [vfind] in H; [discriminate|].
  destruct (version_parts x) as [[[[p0 v0] num0] nl0]|] eqn:Ex.
  - injection H as; subst. exists []. cbn. split; [reflexivity|]. split; [constructor|]. split; [lia|exact Ex].
  - destruct (blank_line x) eqn:Eb.
    + destruct (vfind ls errs) as [[]|[[[[[[[p0 v0] num0] nl0] e0] n0] l0] t0]] eqn:E; [discriminate|]. injection H as; subst.
      destruct (IH _ _ _ _ _ _ _ _ _ E He) as (pre & -> & H1 & H2 & H3). exists (x :: pre). split; [reflexivity|].
      split; [constructor; assumption|]. unfold junk_errors in *. cbn [filter]. rewrite Eb. split; assumption.
    + destruct (Nat.ltb bad_lines (List.length (errs ++ [ErrIgnored x]))) eqn:El; [discriminate|]. apply Nat.ltb_ge in El. unfold bad_lines in El.
      destruct (vfind ls (errs ++ [ErrIgnored x])) as [[]|[[[[[[[p0 v0] num0] nl0] e0] n0] l0] t0]] eqn:E; [discriminate|]. injection H as; subst.
      destruct (IH _ _ _ _ _ _ _ _ _ E El) as (pre & -> & H1 & H2 & H3). exists (x :: pre). split; [reflexivity|].
      split; [constructor; assumption|]. unfold junk_errors in *. cbn [filter]. rewrite Eb. cbn [negb map List.length].
      rewrite app_length in H2. cbn in H2. split; [lia|exact H3].
Qed.
Lemma vfind_give_up pre : forall errs l t,
  Forall (fun x => version_parts x = None) pre -> List.length errs + List.length (junk_errors pre) = 5 ->
  version_parts l = None -> blank_line l = false ->
  vfind (pre ++ l :: t) errs = inl (errs ++ junk_errors (pre ++ [l]) ++ [ErrTooMany], List.length (concat (pre ++ [l]))).
Proof.
  induction pre as [|x pre IH]; intros errs l t Hp Hj Hl Hb; cbn [app vfind].
  - rewrite Hl, Hb. unfold junk_errors in *. cbn [filter map List.length] in *. rewrite Hb. cbn [negb map concat app].
    rewrite app_length. cbn [List.length]. destruct (Nat.ltb_spec bad_lines (List.length errs + 1)) as [_|Hb']; [|unfold bad_lines in Hb'; lia].
    rewrite <- app_assoc, app_nil_r. reflexivity.
  - inversion Hp as [|? ? Hx Hp']; subst. rewrite Hx. unfold junk_errors in *. cbn [filter map concat app] in *.
    destruct (blank_line x); cbn [negb] in *.
    + rewrite (IH errs l t Hp' Hj Hl Hb), (app_length x). reflexivity.
    + cbn [map List.length] in Hj. rewrite app_length. cbn [List.length].
      destruct (Nat.ltb_spec bad_lines (List.length errs + 1)) as [Hb'|Hb']; [unfold bad_lines in Hb'; lia|].
      rewrite (IH (errs ++ [ErrIgnored x]) l t Hp'); [|rewrite app_length; cbn; lia|exact Hl|exact Hb].
      rewrite (app_length x). cbn [map]. rewrite <- app_assoc. reflexivity.
Qed.
(** blank lines before the record make no difference *)
Lemma crlf_only_blank l : one_line l -> crlf_only l = true -> blank_line l = true /\ version_parts l = None.
Proof.
  intros H1 H. destruct l as [|c l]; [discriminate|]. assert (Hall : forallb is_crlf (c :: l) = true) by (destruct l; exact H || exact H).
  split.
  - cbn [forallb] in Hall. apply andb_true_iff in Hall as [Hc _]. unfold is_crlf in Hc. unfold blank_line.
    destruct (N.eqb_spec c 13) as [->|]; [reflexivity|]. cbn in Hc. destruct (N.eqb_spec c 10) as [->|]; [|discriminate].
    apply one_line_head_lf in H1. subst l. reflexivity.
  - apply version_parts_absent. destruct (contains ltag (lower (c :: l))) eqn:E; [|reflexivity]. exfalso.
    apply contains_iff in E as (a & b & E).
    assert (In 119%N (lower (c :: l))) by (rewrite E; apply in_or_app; right; left; reflexivity).
    unfold lower in H0. apply in_map_iff in H0 as (x & Hx & Hi). rewrite forallb_forall in Hall. apply Hall in Hi.
    unfold is_crlf in Hi. apply orb_true_iff in Hi as [Hi|Hi]; apply N.eqb_eq in Hi; subst x; discriminate.
Qed.
Definition shift (n : nat) (w : wres) : wres :=
  match w with
  | WNone e k => WNone e (n + k)
  | WRec r c s k => WRec r c (n + s) (n + k)
  | w => w
  end.
Lemma wparse_after_blank ls : ok_lines ls -> wparse ls = shift (blank_lines ls) (wparse (after_blank ls)).
Proof.
  intro H. induction ls as [|l t IH]; [reflexivity|]. cbn [after_blank blank_lines]. inversion H as [|? ? [Hl _] Ht]; subst.
  destruct (crlf_only l) eqn:E.
  - destruct (crlf_only_blank l Hl E) as [Hb Hv]. unfold wparse in *. cbn [vfind]. rewrite Hv, Hb. specialize (IH Ht).
    destruct (vfind t []) as [[e n]|[[[[[[[p v] num] nl] e] n] l'] t']];
    destruct (vfind (after_blank t) []) as [[e2 n2]|[[[[[[[p2 v2] num2] nl2] e2] n2] l2] t2]]; cbn [shift] in *;
      repeat match goal with |- context [in_list ?a ?b] => destruct (in_list a b) end;
      repeat match goal with |- context [hparse ?a ?b ?c ?d ?e] => destruct (hparse a b c d e) as [[[[? ?] ?] ?]|] end;
      cbn [shift] in *; try discriminate; try exact IH;
      injection IH; intros; subst; f_equal; lia.
  - destruct (wparse (l :: t)); reflexivity.
Qed.
Lemma read_record_any st b :
  s_eoc st = None -> s_parser st = PWarc -> s_kind st <> SGzipFile ->
  let ls := lines_of (rest st) in
  let off s := item_offset (s_kind st) b (pos st + s) in
  match wparse ls with
  | WNone errs n => read_record st b = (Ret (off n, None, errs), adv st n)
  | WRec r clen s n => read_record st b = (Ret (off s, Some r, []), set_eoc (adv st n) (Some clen))
  | WBadVersion num => fst (read_record st b) = Raise ETypeError
  | WHang => fst (read_record st b) = Diverge
  end.
Proof.
  intros He Hp Hk. cbn zeta. pose proof (read_record_warc st b He Hp Hk) as H. cbn zeta in H.
  rewrite wparse_after_blank by apply lines_ok.
  destruct (wparse (after_blank (lines_of (rest st)))); cbn [shift]; rewrite ?adv_adv, ?Nat.add_assoc in *; exact H.
Qed.

(** ** C09 *)
Lemma last_ends l : l <> [] -> ((N.eqb (last l 0%N) 13 || N.eqb (last l 0%N) 10) = true <-> ends_nl l).
Proof. intro H. change (N.eqb (last l 0%N) 13 || N.eqb (last l 0%N) 10) with (is_crlf (last l 0%N)). apply is_crlf_ends. exact H. Qed.
Lemma header_like_parts l : one_line l -> l <> [] -> (header_like l = true <-> header_parts l <> None).
Proof.
  intros H1 Hn. unfold header_like. rewrite andb_true_iff, (last_ends l Hn), existsb_exists. split.
  - intros [(c & Hc & Ec) He]. apply N.eqb_eq in Ec. subst c. unfold header_parts.
    destruct (split_once 58 l) as [[n r]|] eqn:E; [|apply split_once_none in E; contradiction].
    apply split_once_some in E as [-> _].
    assert (Hr : ends_nl r).
    { destruct (last_case r) as [->|(t & c & ->)].
      - destruct He as (t & c & Et & Hc'). apply app_inj_tail in Et as [_ <-]. destruct Hc'; discriminate.
      - destruct He as (t' & c' & Et & Hc'). exists t, c. split; [reflexivity|].
        change (58%N :: t ++ [c]) with ((58%N :: t) ++ [c]) in Et. rewrite app_assoc in Et. apply app_inj_tail in Et as [_ ->]. exact Hc'. }
    destruct (after_colon_some r Hr) as (v & nl & ->). discriminate.
  - intro H. destruct (header_parts l) as [p|] eqn:E; [|contradiction]. split; [|apply (header_parts_ends l p E)].
    unfold header_parts in E. destruct (split_once 58 l) as [[n r]|] eqn:Es; [|discriminate]. apply split_once_some in Es as [-> _].
    exists 58%N. split; [apply in_or_app; right; left; reflexivity|reflexivity].
Qed.
Lemma hparse_stuck ls : ok_lines ls -> forall cur hs errs clen,
  hparse ls cur hs errs clen = None <-> stuck (match cur with Some _ => true | None => false end) ls.
Proof.
  intro H. induction ls as [|l t IH]; intros cur hs errs clen.
  - cbn. split; [discriminate|intros []].
  - inversion H as [|? ? [Hl Hne] Ht]; subst. specialize (IH Ht). cbn [hparse stuck].
    change (cont_text_line l) with (cont_line l). change (blank_text l) with (blank_line l).
    assert (Hstart : forall hs errs clen,
      (if blank_line l then Some (hs, errs, clen, List.length l)
       else match header_parts l with
            | None => None
            | Some (n, v, nl) =>
                match hparse t (Some (strip n, [strip v])) hs (errs ++ nl_error nl (ErrHeaderNl nl)) clen with
                | Some (r, k) => Some (r, List.length l + k)
                | None => None
                end
            end) = None <-> (if blank_line l then False else if header_like l then stuck true t else True)).
    { intros hs0 errs0 clen0. destruct (blank_line l); [split; [discriminate|intros []]|].
      pose proof (header_like_parts l Hl Hne) as Hh. destruct (header_parts l) as [[[n v] nl]|].
      - assert (E : header_like l = true) by (apply Hh; discriminate). rewrite E.
        rewrite <- (IH (Some (strip n, [strip v])) hs0 (errs0 ++ nl_error nl (ErrHeaderNl nl)) clen0).
        destruct (hparse t _ _ _ _) as [[r k]|]; split; intro; try discriminate; reflexivity.
      - assert (E : header_like l = false) by (destruct (header_like l); [exfalso; apply (proj1 Hh eq_refl); reflexivity|reflexivity]).
        rewrite E. split; [exact (fun _ => I)|reflexivity]. }
    destruct cur as [[n vs]|]; cbn [andb].
    + destruct (cont_line l).
      * rewrite <- (IH (Some (n, vs ++ [strip l])) hs (errs ++ nl_error (cont_nl l) (ErrFollowNl l (cont_nl l))) clen).
        destruct (hparse t _ _ _ _) as [[r k]|]; split; intro; try discriminate; reflexivity.
      * destruct (finish (n, vs) hs errs clen) as [[hs' errs'] clen']. apply Hstart.
    + apply Hstart.
Qed.

(** ** version lines *)
Lemma first_tag l : contains ltag (lower l) = true -> exists a w r, l = a ++ w ++ r /\ lower w = ltag /\ contains ltag (lower a) = false.
Proof.
  induction l as [|c t IH]; intro H; [discriminate|].
  destruct (startswith ltag (lower (c :: t))) eqn:Es.
  - apply startswith_iff in Es as [u E]. exists [], (firstn 5 (c :: t)), (skipn 5 (c :: t)). split; [cbn [app]; symmetry; apply firstn_skipn|].
    split; [|reflexivity]. unfold lower in *. rewrite <- firstn_map. rewrite E. reflexivity.
  - unfold lower in H. cbn [map contains] in H. change (startswith ltag (to_lower c :: map to_lower t)) with (startswith ltag (lower (c :: t))) in H.
    rewrite Es in H. cbn [orb] in H. destruct (IH H) as (a & w & r & -> & Hw & Ha). exists (c :: a), w, r. split; [reflexivity|]. split; [exact Hw|].
    unfold lower. cbn [map contains]. fold (lower a). rewrite Ha, orb_false_r.
    destruct (startswith ltag (to_lower c :: lower a)) eqn:E2; [|reflexivity]. exfalso.
    apply startswith_iff in E2 as [u E2]. enough (startswith ltag (lower (c :: a ++ w ++ r)) = true) by congruence.
    apply startswith_iff. exists (u ++ lower (w ++ r)). change (c :: a ++ w ++ r) with ((c :: a) ++ w ++ r). rewrite lower_app.
    change (lower (c :: a)) with (to_lower c :: lower a). rewrite E2, <- app_assoc. reflexivity.
Qed.
Lemma rstrip_last s t c : rstrip s = t ++ [c] -> is_space c = false.
Proof.
  unfold rstrip. intro E. apply (f_equal (@rev N)) in E. rewrite rev_involutive, rev_app_distr in E. cbn [rev app] in E.
  destruct (is_space c) eqn:Ec; [|reflexivity]. exfalso. revert E Ec. generalize (rev s). intro u. induction u as [|x u IH]; intros E Ec; [discriminate|].
  cbn [drop_while] in E. destruct (is_space x) eqn:Ex; [exact (IH E Ec)|]. injection E as -> _. congruence.
Qed.
Lemma chop_line_end v nl : line_end v nl -> chop (v ++ nl) = Some (v, nl).
Proof. intros [ -> | [ -> | [ -> H ] ] ]; [apply chop_crlf|apply chop_cr|apply chop_lf; exact H]. Qed.
Lemma line_end_chop s v nl : chop s = Some (v, nl) -> line_end v nl.
Proof.
  intro H. destruct (chop_nl _ _ _ H) as [ -> | [ -> | -> ] ]; [left; reflexivity|right; left; reflexivity|]. right; right. split; [reflexivity|].
  intros t ->. pose proof (chop_some _ _ _ H) as E. rewrite <- app_assoc in E. change ([CR] ++ [10%N]) with CRLF in E.
  rewrite E, chop_crlf in H. discriminate.
Qed.
Lemma ends_nl_suffix a s : ends_nl (a ++ s) -> s <> [] -> ends_nl s.
Proof.
  intros (t & c & E & Hc) Hs. destruct (last_case s) as [->|(u & x & ->)]; [contradiction|].
  rewrite app_assoc in E. apply app_inj_tail in E as [_ ->]. exists u, c. auto.
Qed.
Lemma tag_not_end a w : lower w = ltag -> ~ ends_nl (a ++ w).
Proof.
  intros Hw (t & c & E & Hc). destruct (last_case w) as [->|(u & x & ->)]; [discriminate|].
  rewrite app_assoc in E. apply app_inj_tail in E as [_ ->]. rewrite lower_app in Hw. cbn [lower map] in Hw.
  change ltag with ((firstn 4 ltag) ++ [47%N]) in Hw. apply app_inj_tail in Hw as [_ Hw].
  destruct Hc as [ -> | -> ]; discriminate.
Qed.
Lemma version_line_as l : version_line l = true <-> exists pfx ws tag num nl, version_as l pfx ws tag num nl.
Proof.
  unfold version_line. rewrite andb_true_iff. split.
  - intros [Hc Hl]. change (B "warc/") with ltag in Hc. destruct (first_tag l Hc) as (a & w & r & E & Hw & Ha).
    assert (Hne : l <> []) by (intros ->; discriminate). apply (last_ends l Hne) in Hl.
    assert (Hr : r <> []). { intros ->. rewrite app_nil_r in E. subst l. exact (tag_not_end a w Hw Hl). }
    assert (He : ends_nl r). { rewrite E, app_assoc in Hl. exact (ends_nl_suffix _ _ Hl Hr). }
    apply chop_ends in He as [[num nl] Hch]. destruct (rstrip_split a) as (ws & Ea & Hws).
    exists (rstrip a), ws, w, num, nl. split; [|split; [exact Hw|split; [|split; [exact Hws|split; [apply rstrip_last|exact (line_end_chop _ _ _ Hch)]]]]].
    + rewrite E. rewrite Ea at 1. rewrite (chop_some _ _ _ Hch), <- app_assoc. reflexivity.
    + change (B "warc/") with ltag. destruct (contains ltag (lower (rstrip a))) eqn:Er; [|reflexivity].
      apply contains_iff in Er as (x & y & Er). enough (contains ltag (lower a) = true) by congruence.
      apply contains_iff. exists x, (y ++ lower ws). rewrite Ea at 1. rewrite lower_app, Er, <- !app_assoc. reflexivity.
  - intros (pfx & ws & tag & num & nl & -> & Ht & _ & _ & _ & Hn). split.
    + apply contains_iff. exists (lower (pfx ++ ws)), (lower (num ++ nl)). rewrite <- Ht, <- !lower_app, <- !app_assoc. reflexivity.
    + assert (He : ends_nl (pfx ++ ws ++ tag ++ num ++ nl)).
      { rewrite !app_assoc. apply ends_nl_app. destruct Hn as [ -> | [ -> | [ -> _ ] ] ]; [exists [13%N], 10%N|exists [], 13%N|exists [], 10%N]; auto. }
      apply last_ends; [|exact He]. intros E. rewrite E in He. destruct He as (t & c & Et & _). destruct t; discriminate.
Qed.
Lemma version_as_parts l pfx ws tag num nl : one_line l -> version_as l pfx ws tag num nl ->
  version_parts l = Some (pfx, ws ++ tag ++ num, num, nl).
Proof.
  intros H1 (E & Ht & Hc & Hw & Hp & Hn). rewrite E. apply (version_parts_hit pfx ws tag (num ++ nl)); auto.
  - apply chop_line_end. exact Hn.
  - intro Hi. apply in_split in Hi as (a & b & ->). rewrite E, <- app_assoc in H1. cbn [app] in H1. specialize (H1 a _ eq_refl).
    apply app_eq_nil in H1 as [_ H1]. apply app_eq_nil in H1 as [_ H1]. apply app_eq_nil in H1 as [H1 _]. subst tag. discriminate.
Qed.
Lemma version_line_none l : one_line l -> l <> [] -> (version_parts l = None <-> version_line l = false).
Proof.
  intros H1 Hn. destruct (version_line l) eqn:E.
  - apply version_line_as in E as (pfx & ws & tag & num & nl & E). rewrite (version_as_parts _ _ _ _ _ _ H1 E). split; discriminate.
  - split; [reflexivity|intros _]. unfold version_line in E. apply andb_false_iff in E as [E|E].
    + apply version_parts_absent. exact E.
    + destruct (version_parts l) as [p|] eqn:Ep; [|reflexivity]. exfalso. apply version_parts_ends in Ep.
      apply (last_ends l Hn) in Ep. congruence.
Qed.
Lemma version_parts_inv l p v num nl : one_line l -> l <> [] -> version_parts l = Some (p, v, num, nl) ->
  exists ws tag, version_as l p ws tag num nl /\ v = ws ++ tag ++ num.
Proof.
  intros H1 Hn H. destruct (version_line l) eqn:E.
  - apply version_line_as in E as (pfx & ws & tag & num' & nl' & E). rewrite (version_as_parts _ _ _ _ _ _ H1 E) in H.
    injection H as -> <- -> ->. eauto.
  - apply (version_line_none l H1 Hn) in E. congruence.
Qed.
Lemma known_in num : in_list num KNOWN_VERSIONS = true <-> In num known_numbers.
Proof.
  unfold in_list. rewrite existsb_exists. split.
  - intros (x & Hx & E). apply bytes_eqb_eq in E. subst x. exact Hx.
  - intro H. exists num. split; [exact H|apply bytes_eqb_refl].
Qed.

(** ** C09 *)
Definition before_version (before : list bytes) : Prop :=
  Forall (fun x => version_line x = false) before /\ List.length (junk_lines before) <= 5.
Lemma before_version_parts before : ok_lines before ->
  (before_version before <-> Forall (fun x => version_parts x = None) before /\ List.length (junk_errors before) <= 5).
Proof.
  intro H. unfold before_version, junk_errors, junk_lines. rewrite map_length.
  assert (E : Forall (fun x => version_line x = false) before <-> Forall (fun x => version_parts x = None) before).
  { induction H as [|x t [Hx1 Hx2] Ht IH]; [split; constructor|]. pose proof (version_line_none x Hx1 Hx2) as Hv.
    split; intro Hf; inversion Hf; subst; constructor; tauto. }
  rewrite E. reflexivity.
Qed.
Lemma wparse_hang ls : ok_lines ls -> (wparse ls = WHang <->
  exists before l block pfx ws tag num nl, ls = before ++ l :: block /\ before_version before /\
    version_as l pfx ws tag num nl /\ In num known_numbers /\ stuck false block).
Proof.
  intro Hok. unfold wparse. split.
  - intro H. destruct (vfind ls []) as [[]|[[[[[[[p v] num] nl] e] n] l] t]] eqn:E; [discriminate|].
    destruct (in_list num KNOWN_VERSIONS) eqn:Ek; [|discriminate].
    destruct (hparse t None [] _ 0%Z) as [[[[hs e'] clen] k]|] eqn:Eh; [discriminate|].
    destruct (vfind_inv ls [] p v num nl e n l t E ltac:(cbn; lia)) as (pre & -> & H1 & H2 & H3).
    apply Forall_app in Hok as [Hok1 Hok2]. inversion Hok2 as [|? ? [Hl1 Hl2] Ht]; subst.
    destruct (version_parts_inv l p v num nl Hl1 Hl2 H3) as (ws & tag & Has & _).
    exists pre, l, t, p, ws, tag, num, nl. split; [reflexivity|]. split; [apply before_version_parts; auto|].
    split; [exact Has|]. split; [apply known_in; exact Ek|]. exact (proj1 (hparse_stuck t Ht None _ _ _) Eh).
  - intros (before & l & block & pfx & ws & tag & num & nl & -> & Hb & Has & Hk & Hs).
    apply Forall_app in Hok as [Hok1 Hok2]. inversion Hok2 as [|? ? [Hl1 Hl2] Ht]; subst.
    apply (before_version_parts before Hok1) in Hb as [Hb1 Hb2].
    rewrite (vfind_hit before [] l block _ _ _ _ Hb1 Hb2 (version_as_parts _ _ _ _ _ _ Hl1 Has)).
    apply known_in in Hk. rewrite Hk.
    match goal with |- context [hparse block None [] ?e 0%Z] =>
      pose proof (proj2 (hparse_stuck block Ht None [] e 0%Z) Hs) as -> end. reflexivity.
Qed.
(** Reading a record never returns exactly when the header block that follows the
    first version line (at most five junk lines into the text, with a known
    version number) has a line that is neither blank nor a continuation nor a
    header line with colon and line end. *)
Theorem C09_hangs_iff : forall (st : stream) (pos : nat) (text : bytes) (offsets : bool),
  ready st pos text ->
  (fst (read_record st offsets) = Diverge <->
   exists before vline block pfx ws tag num nl,
     lines_of text = before ++ vline :: block /\
     Forall (fun x => version_line x = false) before /\ List.length (junk_lines before) <= 5 /\
     version_as vline pfx ws tag num nl /\ In num known_numbers /\ stuck false block).
Proof.
  intros st p text b (Hk & Hp & He & _ & Hr). rewrite <- Hr.
  assert (Hk' : s_kind st <> SGzipFile) by (rewrite Hk; discriminate).
  pose proof (read_record_any st b He Hp Hk') as H. cbn zeta in H.
  pose proof (wparse_hang (lines_of (rest st)) (lines_ok _)) as Hw. fold (rest st).
  transitivity (wparse (lines_of (rest st)) = WHang).
  - destruct (wparse (lines_of (rest st))) as [errs n|r clen s n|num|]; try (rewrite H); cbn [fst]; split; intro; try discriminate; reflexivity.
  - rewrite Hw. unfold before_version. split.
    + intros (a & b0 & c & d & e & f & g & h & H1 & (H2 & H3) & H4). exists a, b0, c, d, e, f, g, h. tauto.
    + intros (a & b0 & c & d & e & f & g & h & H1 & H2 & H3 & H4). exists a, b0, c, d, e, f, g, h. tauto.
Qed.
(** and it is an endless loop: no number of iterations is enough *)
Theorem C09_endless : forall (st : stream) (pos : nat) (text : bytes) (off : option nat),
  ready st pos text -> fst (read_record st true) = Diverge ->
  forall fuel, fst (warc_parse_fuel fuel st off None) = Diverge.
Proof.
  intros st p text off (Hk & Hp & He & _ & Hr) Hd fuel.
  assert (Hk' : s_kind st <> SGzipFile) by (rewrite Hk; discriminate).
  pose proof (read_record_any st true He Hp Hk') as H. cbn zeta in H.
  assert (W : wparse (lines_of (rest st)) = WHang).
  { destruct (wparse (lines_of (rest st))); try (rewrite H in Hd; discriminate); try (rewrite Hd in H; discriminate). reflexivity. }
  pose proof (warc_parse_hang _ st off He eq_refl W fuel) as Hh.
  unfold warc_parse_fuel in *. rewrite (proj1 (readline_lines st He)). exact Hh.
Qed.
Example C09_case : exists before vline block pfx ws tag num nl,
  lines_of (B "junk" ++ [LF] ++ B "xx WARC/1.0" ++ CRLF ++ B "WARC-Type: response" ++ CRLF ++ B "no colon" ++ CRLF ++ CRLF) = before ++ vline :: block /\
  Forall (fun x => version_line x = false) before /\ List.length (junk_lines before) <= 5 /\
  version_as vline pfx ws tag num nl /\ In num known_numbers /\ stuck false block.
Proof.
  exists [B "junk" ++ [LF]], (B "xx WARC/1.0" ++ CRLF), [B "WARC-Type: response" ++ CRLF; B "no colon" ++ CRLF; CRLF],
    (B "xx"), (B " "), (B "WARC/"), (B "1.0"), CRLF.
  split; [vm_compute; reflexivity|]. split; [repeat constructor|]. split; [vm_compute; repeat constructor|].
  split; [|split; [left; reflexivity|vm_compute; exact I]].
  split; [vm_compute; reflexivity|]. split; [reflexivity|]. split; [reflexivity|]. split; [reflexivity|].
  split; [|left; reflexivity]. intros t c E. change (B "xx") with ([120%N] ++ [120%N]) in E. apply app_inj_tail in E as [_ <-]. reflexivity.
Qed.

(** ** C10 - C13, C23: reading a record from general text *)
Definition vnl_errors (nl : bytes) : list perr := if bytes_eqb nl CRLF then [] else [ErrVersionNl nl].
Definition prefix_errors (pfx : bytes) : list perr := match pfx with [] => [] | _ => [ErrPrefix pfx] end.
Definition entries_of (es : list entry) : bytes := concat (map entry_text es).
Lemma is_line_one l : is_line l -> one_line l /\ l <> [].
Proof. intros (s & H & ->). split; [apply one_line_lf; exact H|destruct s; discriminate]. Qed.
Lemma lines_of_lines ls x : Forall is_line ls -> lines_of (concat ls ++ x) = ls ++ lines_of x.
Proof.
  induction 1 as [|l ls (s & Hs & ->) _ IH]; [reflexivity|]. cbn [concat app]. unfold line_text. rewrite <- !app_assoc.
  cbn [app]. rewrite lines_of_lf by exact Hs. rewrite IH. reflexivity.
Qed.
Lemma vline_is_line pfx ws tag num : no_lf pfx -> no_lf ws -> lower tag = ltag -> no_lf num ->
  forall nl, nl = CRLF \/ nl = [LF] -> is_line (pfx ++ ws ++ tag ++ num ++ nl).
Proof.
  intros H1 H2 H3 H4 nl Hn.
  assert (Ht : no_lf tag).
  { intro Hi. apply (in_map to_lower) in Hi. fold (lower tag) in Hi. rewrite H3 in Hi. cbn in Hi. repeat (destruct Hi as [Hi|Hi]; [discriminate|]). destruct Hi. }
  assert (Hall : no_lf (pfx ++ ws ++ tag ++ num)).
  { intro Hi. repeat (apply in_app_or in Hi as [Hi|Hi]; [solve [auto]|]). auto. }
  destruct Hn as [ -> | -> ].
  - exists ((pfx ++ ws ++ tag ++ num) ++ [CR]). split; [|unfold line_text; rewrite <- !app_assoc; reflexivity].
    intro Hi. apply in_app_or in Hi as [Hi|[Hi|[]]]; [auto|discriminate].
  - exists (pfx ++ ws ++ tag ++ num). split; [exact Hall|]. unfold line_text. rewrite <- !app_assoc. reflexivity.
Qed.
Theorem read_general : forall (st : stream) (pos : nat) (junk : list bytes) (vline pfx ws tag num nl : bytes)
    (es : list entry) (crlf : bool) (x : bytes) (offsets : bool),
  ready st pos (concat junk ++ vline ++ entries_of es ++ eol crlf ++ x) ->
  Forall is_line junk -> Forall (fun l => version_line l = false) junk -> List.length (junk_lines junk) <= 5 ->
  is_line vline -> version_as vline pfx ws tag num nl -> In num known_numbers -> Forall entry_ok es ->
  let errs := map ErrIgnored (junk_lines junk) ++ vnl_errors nl ++ prefix_errors pfx ++ concat (map entry_errors es) in
  exists st1,
  read_record st offsets =
    (Ret (if offsets then Some (pos + List.length (concat junk) + List.length pfx) else None,
          Some (mkrec (RWarc (ws ++ tag ++ num)) (map entry_header es) errs None CF_stream true), []), st1) /\
  s_eoc st1 = Some (declared_length (map entry_header es) 0) /\ f_rest (s_fh st1) = x /\
  s_kind st1 = SPlain /\ s_parser st1 = PWarc /\ f_strict (s_fh st1) = f_strict (s_fh st) /\
  f_pos (s_fh st1) = pos + List.length (concat junk) + List.length vline + List.length (entries_of es) + List.length (eol crlf).
Proof.
  intros st p junk vline pfx ws tag num nl es crlf x b (Hk & Hp & He & Hpos & Hr) Hj Hjv Hj5 Hvl Has Hn Hes. cbn zeta.
  assert (Hk' : s_kind st <> SGzipFile) by (rewrite Hk; discriminate).
  pose proof (read_record_any st b He Hp Hk') as H. cbn zeta in H.
  destruct (is_line_one vline Hvl) as [Hv1 Hv2].
  assert (El : lines_of (rest st) = junk ++ vline :: lines_of (entries_of es ++ eol crlf ++ x)).
  { unfold rest. rewrite Hr, (lines_of_lines junk _ Hj). f_equal. destruct Hvl as (s & Hs & ->). unfold line_text.
    rewrite <- !app_assoc. cbn [app]. rewrite lines_of_lf by exact Hs. reflexivity. }
  assert (Hok : ok_lines junk). { apply (Forall_impl _ is_line_one). exact Hj. }
  assert (Hb : before_version junk) by (split; assumption). apply (before_version_parts junk Hok) in Hb as [Hb1 Hb2].
  pose proof (version_as_parts _ _ _ _ _ _ Hv1 Has) as Hvp. apply known_in in Hn.
  assert (W : wparse (lines_of (rest st)) =
    WRec (mkrec (RWarc (ws ++ tag ++ num)) (map entry_header es)
      (map ErrIgnored (junk_lines junk) ++ vnl_errors nl ++ prefix_errors pfx ++ concat (map entry_errors es)) None CF_stream true)
      (declared_length (map entry_header es) 0) (List.length (concat junk) + List.length pfx)
      (List.length (concat junk) + List.length vline + (List.length (entries_of es) + List.length (eol crlf)))).
  { rewrite El. unfold wparse. rewrite (vfind_hit junk [] vline _ _ _ _ _ Hb1 Hb2 Hvp), Hn.
    rewrite lines_entries by exact Hes.
    assert (Eb : lines_of (eol crlf ++ x) = eol crlf :: lines_of x) by (apply (lines_of_eol [] crlf x); intros []).
    rewrite Eb. destruct (blank_eol crlf) as [Bb Bc].
    rewrite hparse_entries; [|exact Hes|exact Bc]. cbn [hparse]. rewrite Bb. cbn [app].
    f_equal. f_equal. rewrite <- !app_assoc. f_equal. }
  rewrite W in H. rewrite H. eexists. split.
  { unfold item_offset. rewrite Hk. destruct b; [|reflexivity]. change (pos st) with (f_pos (s_fh st)). rewrite Hpos, Nat.add_assoc. reflexivity. }
  split; [reflexivity|]. split; [|split; [exact Hk|split; [exact Hp|split; [reflexivity|cbn; rewrite Hpos; lia]]]].
  change (f_rest (s_fh (set_eoc ?s _))) with (rest s). rewrite rest_adv. unfold rest. rewrite Hr.
  replace (List.length (concat junk) + List.length vline + (List.length (entries_of es) + List.length (eol crlf)))
    with (List.length (concat junk ++ vline ++ entries_of es ++ eol crlf)) by (rewrite !app_length; lia).
  rewrite !app_assoc, skipn_app, skipn_all, Nat.sub_diag. reflexivity.
Qed.

(** ** C10 *)
Definition version_split (v : bytes) : option (bytes * bytes) :=
  if startswith (B "WARC/") v then Some (B "WARC/", skipn 5 v) else None.
Lemma plain_version v : In v versions -> exists num, v = B "WARC/" ++ num /\ In num known_numbers /\
  version_as (v ++ CRLF) [] [] (B "WARC/") num CRLF /\ is_line (v ++ CRLF).
Proof.
  assert (G : forall num, no_lf num -> version_as ((B "WARC/" ++ num) ++ CRLF) [] [] (B "WARC/") num CRLF /\ is_line ((B "WARC/" ++ num) ++ CRLF)).
  { intros num Hn. rewrite <- app_assoc. split.
    - split; [reflexivity|]. split; [reflexivity|]. split; [reflexivity|]. split; [reflexivity|]. split; [intros [|? ?] ? E; discriminate|left; reflexivity].
    - apply (vline_is_line [] [] (B "WARC/") num); auto; intros []. }
  intros [<-|[<-|[<-|[]]]].
  - exists (B "1.0"). split; [reflexivity|]. split; [left; reflexivity|]. apply (G (B "1.0")), (no_byteb_sound 10). reflexivity.
  - exists (B "0.17"). split; [reflexivity|]. split; [right; left; reflexivity|]. apply (G (B "0.17")), (no_byteb_sound 10). reflexivity.
  - exists (B "0.18"). split; [reflexivity|]. split; [right; right; left; reflexivity|]. apply (G (B "0.18")), (no_byteb_sound 10). reflexivity.
Qed.
Theorem C10_junk_tolerated : forall (w : wrec) (junk : list bytes) (after : bytes) (st : stream) (pos : nat),
  ready st pos (concat junk ++ wrec_text w ++ after) -> wrec_ok w ->
  Forall is_line junk -> Forall (fun l => version_line l = false) junk -> List.length (junk_lines junk) <= 5 ->
  exists st1,
  read_record st true =
    (Ret (Some (pos + List.length (concat junk)),
          Some (mkrec (RWarc (w_version w)) (w_headers w) (map ErrIgnored (junk_lines junk)) None CF_stream true), []), st1) /\
  fst (stream_read st1 None) = Ret (w_body w).
Proof.
  intros w junk after st pos Hst (Hv & Hh & Hc & Hl) Hj Hjv Hj5.
  destruct (plain_version _ Hv) as (num & Ev & Hn & Has & Hline). destruct (plain_entries (w_headers w) Hh) as (P1 & P2 & P3).
  assert (Et : concat junk ++ wrec_text w ++ after = concat junk ++ (w_version w ++ CRLF) ++ entries_of (map plain_entry (w_headers w)) ++ eol true ++ (w_body w ++ after)).
  { f_equal. unfold wrec_text. rewrite <- app_assoc, head_text_eq by exact Hh. reflexivity. }
  rewrite Et in Hst.
  destruct (read_general st pos junk _ _ _ _ _ _ _ true _ true Hst Hj Hjv Hj5 Hline Has Hn P1) as (st1 & E & E1 & E2 & _).
  exists st1. cbn zeta in E. rewrite P2, (plain_entries_errors _ Hh Hc) in E. cbn [vnl_errors prefix_errors app] in E.
  change (bytes_eqb CRLF CRLF) with true in E. rewrite app_nil_r in E. cbn [List.length] in E. rewrite Nat.add_0_r in E.
  split.
  - rewrite E. rewrite Ev. reflexivity.
  - rewrite P2, Hl in E1. rewrite (read_rest st1 (w_body w) after); [reflexivity|]. split; [exact E1|exact E2].
Qed.
Theorem C10_gives_up : forall (junk : list bytes) (last after : bytes) (st : stream) (pos : nat),
  ready st pos (concat (junk ++ [last]) ++ after) ->
  Forall is_line (junk ++ [last]) -> Forall (fun l => version_line l = false) (junk ++ [last]) ->
  List.length (junk_lines junk) = 5 -> blank_text last = false ->
  exists st1,
  read_record st true =
    (Ret (Some (pos + List.length (concat (junk ++ [last]))), None,
          map ErrIgnored (junk_lines (junk ++ [last])) ++ [ErrTooMany]), st1) /\
  List.length (map ErrIgnored (junk_lines (junk ++ [last])) ++ [ErrTooMany]) = 7.
Proof.
  intros junk last after st p (Hk & Hp & He & Hpos & Hr) Hj Hv H5 Hb.
  assert (Hk' : s_kind st <> SGzipFile) by (rewrite Hk; discriminate).
  pose proof (read_record_any st true He Hp Hk') as H. cbn zeta in H.
  assert (El : lines_of (rest st) = junk ++ last :: lines_of after).
  { unfold rest. rewrite Hr, (lines_of_lines _ _ Hj), <- app_assoc. reflexivity. }
  assert (Hok : ok_lines (junk ++ [last])) by (apply (Forall_impl _ is_line_one); exact Hj).
  assert (Hnone : Forall (fun x => version_parts x = None) (junk ++ [last])).
  { clear - Hok Hv. induction Hok as [|x t [Hx1 Hx2] Ht IH]; [constructor|]. inversion Hv; subst. constructor; [|auto]. apply version_line_none; auto. }
  apply Forall_app in Hnone as [Hn1 Hn2]. inversion Hn2 as [|? ? Hn3 _]; subst.
  assert (W : wparse (lines_of (rest st)) = WNone (junk_errors (junk ++ [last]) ++ [ErrTooMany]) (List.length (concat (junk ++ [last])))).
  { rewrite El. unfold wparse. rewrite (vfind_give_up junk [] last (lines_of after) Hn1); [reflexivity| |exact Hn3|exact Hb].
    unfold junk_errors. rewrite map_length. exact H5. }
  rewrite W in H. rewrite H. eexists. split.
  - unfold item_offset. rewrite Hk. reflexivity.
  - unfold junk_lines in *. rewrite filter_app, map_app, !app_length, map_length, H5. cbn [filter]. rewrite Hb. reflexivity.
Qed.
Lemma vfind_none ls : forall errs, Forall (fun x => version_parts x = None) ls -> List.length errs + List.length (junk_errors ls) <= 5 ->
  vfind ls errs = inl (errs ++ junk_errors ls, List.length (concat ls)).
Proof.
  induction ls as [|x t IH]; intros errs H1 H2; [cbn; rewrite app_nil_r; reflexivity|]. inversion H1; subst. cbn [vfind concat].
  rewrite H3. unfold junk_errors in *. cbn [filter] in *. destruct (blank_line x); cbn [negb map List.length] in *.
  - rewrite IH by assumption. rewrite app_length. reflexivity.
  - rewrite app_length. cbn [List.length]. destruct (Nat.ltb_spec bad_lines (List.length errs + 1)) as [Hb|_]; [unfold bad_lines in Hb; lia|].
    rewrite IH; [|assumption|rewrite app_length; cbn; lia]. rewrite <- app_assoc, app_length. reflexivity.
Qed.
(** only junk up to the end of the file: no record, every junk line reported *)
Theorem C10_only_junk : forall (text : bytes) (st : stream) (pos : nat),
  ready st pos text -> Forall (fun l => version_line l = false) (lines_of text) ->
  List.length (junk_lines (lines_of text)) <= 5 ->
  exists st1, read_record st true =
    (Ret (Some (pos + List.length text), None, map ErrIgnored (junk_lines (lines_of text))), st1).
Proof.
  intros text st p (Hk & Hp & He & Hpos & Hr) Hv H5.
  assert (Hk' : s_kind st <> SGzipFile) by (rewrite Hk; discriminate).
  pose proof (read_record_any st true He Hp Hk') as H. cbn zeta in H. unfold rest in H. rewrite Hr in H.
  pose proof (lines_ok text) as Hok.
  assert (Hnone : Forall (fun x => version_parts x = None) (lines_of text)).
  { clear - Hok Hv. revert Hok Hv. generalize (lines_of text). intros ls Hok Hv.
    induction Hok as [|x t [Hx1 Hx2] Ht IH]; [constructor|]. inversion Hv; subst. constructor; [|auto]. apply version_line_none; auto. }
  assert (W : wparse (lines_of text) = WNone (map ErrIgnored (junk_lines (lines_of text))) (List.length text)).
  { unfold wparse. rewrite (vfind_none (lines_of text) [] Hnone); [rewrite concat_lines; reflexivity|].
    unfold junk_errors. rewrite map_length. exact H5. }
  rewrite W in H. rewrite H. eexists. unfold item_offset. rewrite Hk. change (StreamFacts.pos st) with (f_pos (s_fh st)). rewrite Hpos. reflexivity.
Qed.
Lemma is_lineb l s : no_byteb 10 s = true -> l = line_text s -> is_line l.
Proof. intros H ->. exists s. split; [apply (no_byteb_sound 10); exact H|reflexivity]. Qed.
Definition junk_sample : list bytes := [B "# comment" ++ [LF]; [CR; LF]; B "a: b" ++ [CR; LF]; B "x" ++ [LF]; B "y" ++ [LF]; B "z" ++ [LF]].
Example C10_case : Forall is_line junk_sample /\ Forall (fun l => version_line l = false) junk_sample /\ List.length (junk_lines junk_sample) = 5.
Proof.
  split; [|split; [repeat constructor|reflexivity]]. unfold junk_sample.
  repeat (constructor; [match goal with |- is_line ?l => apply (is_lineb l (removelast l)); reflexivity end|]). constructor.
Qed.
Example C10_case_runs : snd (fst (list_records (new_stream SPlain (mkfile (concat junk_sample ++ wrec_text cut_sample ++ terminator) 0 true) PWarc) None true)) =
  [(Some 24, Some (mkrec (RWarc (B "WARC/1.0")) (w_headers cut_sample) (map ErrIgnored (junk_lines junk_sample)) None CF_stream true), []);
   (Some 84, None, [])].
Proof. vm_compute. reflexivity. Qed.

(** ** C11 *)
Theorem C11_prefix_before_version : forall (pfx ws tag num nl : bytes) (hs : list header) (body after : bytes) (st : stream) (pos : nat),
  ready st pos ((pfx ++ ws ++ tag ++ num ++ nl) ++ concat (map header_text hs) ++ CRLF ++ body ++ after) ->
  no_lf pfx -> no_lf ws -> nl = CRLF \/ nl = [LF] ->
  version_as (pfx ++ ws ++ tag ++ num ++ nl) pfx ws tag num nl -> In num known_numbers ->
  Forall header_ok hs -> Forall header_clean hs -> declared_length hs 0 = Z.of_nat (List.length body) ->
  exists st1,
  read_record st true =
    (Ret (Some (pos + List.length pfx),
          Some (mkrec (RWarc (ws ++ tag ++ num)) hs
                  ((if bytes_eqb nl CRLF then [] else [ErrVersionNl nl]) ++
                   (match pfx with [] => [] | _ => [ErrPrefix pfx] end)) None CF_stream true), []), st1) /\
  fst (stream_read st1 None) = Ret body.
Proof.
  intros pfx ws tag num nl hs body after st pos Hst Hp Hw Hnl Has Hn Hh Hc Hl.
  destruct (plain_entries hs Hh) as (P1 & P2 & P3).
  assert (Hline : is_line (pfx ++ ws ++ tag ++ num ++ nl)).
  { apply vline_is_line; auto; [apply Has|]. destruct Hn as [<-|[<-|[<-|[]]]]; apply (no_byteb_sound 10); reflexivity. }
  rewrite <- P3 in Hst. change CRLF with (eol true) in Hst.
  destruct (read_general st pos [] _ _ _ _ _ _ _ true _ true Hst ltac:(constructor) ltac:(constructor) ltac:(cbn; lia) Hline Has Hn P1) as (st1 & E & E1 & E2 & _).
  exists st1. cbn zeta in E. rewrite P2, (plain_entries_errors _ Hh Hc) in E. cbn [junk_lines filter map app concat List.length] in E.
  rewrite app_nil_r, Nat.add_0_r in E. split; [exact E|]. rewrite P2, Hl in E1. rewrite (read_rest st1 body after); [reflexivity|]. split; assumption.
Qed.
Example C11_case : version_as (B "garbage" ++ B "  " ++ B "warc/" ++ B "0.17" ++ CRLF) (B "garbage") (B "  ") (B "warc/") (B "0.17") CRLF.
Proof.
  split; [reflexivity|]. split; [reflexivity|]. split; [reflexivity|]. split; [reflexivity|].
  split; [|left; reflexivity]. intros t c E. change (B "garbage") with (B "garbag" ++ [101%N]) in E. apply app_inj_tail in E as [_ <-]. reflexivity.
Qed.

(** ** C12 *)
Theorem C12_unknown_version_raises : forall (junk : list bytes) (vline pfx ws tag num nl after : bytes) (st : stream) (pos : nat) (offsets : bool),
  ready st pos (concat junk ++ vline ++ after) ->
  Forall is_line junk -> Forall (fun l => version_line l = false) junk -> List.length (junk_lines junk) <= 5 ->
  is_line vline -> version_as vline pfx ws tag num nl -> ~ In num known_numbers ->
  fst (read_record st offsets) = Raise ETypeError.
Proof.
  intros junk vline pfx ws tag num nl after st pos b (Hk & Hp & He & Hpos & Hr) Hj Hjv Hj5 Hvl Has Hn.
  assert (Hk' : s_kind st <> SGzipFile) by (rewrite Hk; discriminate).
  pose proof (read_record_any st b He Hp Hk') as H. cbn zeta in H.
  destruct (is_line_one vline Hvl) as [Hv1 Hv2].
  assert (El : lines_of (rest st) = junk ++ vline :: lines_of after).
  { unfold rest. rewrite Hr, (lines_of_lines junk _ Hj). f_equal. destruct Hvl as (s & Hs & ->). unfold line_text.
    rewrite <- !app_assoc. cbn [app]. rewrite lines_of_lf by exact Hs. reflexivity. }
  assert (Hok : ok_lines junk) by (apply (Forall_impl _ is_line_one); exact Hj).
  assert (Hb : before_version junk) by (split; assumption). apply (before_version_parts junk Hok) in Hb as [Hb1 Hb2].
  pose proof (version_as_parts _ _ _ _ _ _ Hv1 Has) as Hvp.
  assert (Ek : in_list num KNOWN_VERSIONS = false) by (destruct (in_list num KNOWN_VERSIONS) eqn:Ek; [apply known_in in Ek; contradiction|reflexivity]).
  assert (W : wparse (lines_of (rest st)) = WBadVersion num).
  { rewrite El. unfold wparse. rewrite (vfind_hit junk [] vline _ _ _ _ _ Hb1 Hb2 Hvp), Ek. reflexivity. }
  rewrite W in H. exact H.
Qed.
Example C12_case : version_as (B "WARC/1.1" ++ CRLF) [] [] (B "WARC/") (B "1.1") CRLF /\ ~ In (B "1.1") known_numbers.
Proof.
  split.
  - split; [reflexivity|]. split; [reflexivity|]. split; [reflexivity|]. split; [reflexivity|]. split; [intros [|? ?] ? E; discriminate|left; reflexivity].
  - intros [H|[H|[H|[]]]]; discriminate.
Qed.

(** ** C13 and C23 *)
(** the same header with CR LF everywhere *)
Definition crlf_entry (e : entry) : entry :=
  mkentry (en_name e) (en_raw e) true (map (fun c : bytes * bool => (fst c, true)) (en_conts e)).
Lemma crlf_entry_ok e : entry_ok e -> entry_ok (crlf_entry e).
Proof.
  intros (H1 & H2 & H3 & H4 & H5 & H6). unfold entry_ok, crlf_entry. cbn [en_name en_raw en_crlf en_conts].
  repeat (split; [assumption || (intro; discriminate)|]). apply Forall_map. eapply Forall_impl; [|exact H6].
  intros c (C1 & C2 & C3 & C4). unfold cont_ok. cbn [fst snd]. split; [exact C1|]. split; [intro; discriminate|]. split; assumption.
Qed.
Lemma crlf_entry_header e : entry_header (crlf_entry e) = entry_header e.
Proof. unfold entry_header, crlf_entry. cbn [en_name en_raw en_conts]. rewrite map_map. reflexivity. Qed.
(** C13: the value of a header is its pieces, stripped and joined by single
    spaces, and the headers come in the order of the text *)
Theorem C13_folded_headers : forall (version : bytes) (es : list entry) (body after : bytes) (st : stream) (pos : nat),
  ready st pos ((version ++ CRLF) ++ concat (map entry_text es) ++ CRLF ++ body ++ after) ->
  In version versions -> Forall entry_ok es ->
  declared_length (map entry_header es) 0 = Z.of_nat (List.length body) ->
  exists errs st1,
  read_record st true = (Ret (Some pos, Some (mkrec (RWarc version)
    (map (fun e => (strip (en_name e), join (B " ") (strip (en_raw e) :: map (fun c : bytes * bool => strip (fst c)) (en_conts e)))) es)
    errs None CF_stream true), []), st1) /\
  fst (stream_read st1 None) = Ret body.
Proof.
  intros version es body after st pos Hst Hv Hes Hl. destruct (plain_version _ Hv) as (num & Ev & Hn & Has & Hline).
  change CRLF with (eol true) in Hst at 2.
  destruct (read_general st pos [] _ _ _ _ _ _ _ true _ true Hst ltac:(constructor) ltac:(constructor) ltac:(cbn; lia) Hline Has Hn Hes) as (st1 & E & E1 & E2 & _).
  eexists. exists st1. cbn zeta in E. cbn [junk_lines filter map app concat List.length] in E. rewrite !Nat.add_0_r in E. split.
  - rewrite E. subst version. reflexivity.
  - rewrite Hl in E1. rewrite (read_rest st1 body after); [reflexivity|]. split; assumption.
Qed.
(** C23: the newline complaints are exactly these: one for each line that ends in
    LF alone.  (A header line with nothing at all after its colon is excluded
    here; see C23_empty_value_spurious.) *)
Definition line_complaints (vcrlf : bool) (es : list entry) : list perr :=
  (if vcrlf then [] else [ErrVersionNl [LF]]) ++
  concat (map (fun e =>
    (if en_crlf e then [] else [ErrHeaderNl [LF]]) ++
    concat (map (fun c : bytes * bool => if snd c then [] else [ErrFollowNl (fst c ++ [LF]) [LF]]) (en_conts e))) es).
Lemma complaints_of es : Forall (fun e => en_raw e <> [] /\ header_clean (entry_header e)) es ->
  concat (map entry_errors es) = concat (map (fun e =>
    (if en_crlf e then [] else [ErrHeaderNl [LF]]) ++
    concat (map (fun c : bytes * bool => if snd c then [] else [ErrFollowNl (fst c ++ [LF]) [LF]]) (en_conts e))) es).
Proof.
  induction es as [|e es IH]; intro H; [reflexivity|]. inversion H as [|? ? [H1 H2] H3]; subst. cbn [map concat]. rewrite IH by exact H3. f_equal.
  unfold entry_errors, entry_nl_errors.
  assert (Ev : value_errors (entry_header e) = []).
  { unfold value_errors, same_nameb. destruct H2 as [H2 H4]. unfold same_name in *.
    destruct (bytes_eqb (lower (fst (entry_header e))) (lower (B "Content-Type"))) eqn:E1.
    - apply bytes_eqb_eq in E1. specialize (H2 E1). destruct (snd (entry_header e)); [contradiction|reflexivity].
    - destruct (bytes_eqb (lower (fst (entry_header e))) (lower (B "Content-Length"))) eqn:E2; [|reflexivity].
      apply bytes_eqb_eq in E2. destruct (H4 E2) as [n ->]. reflexivity. }
  rewrite Ev, app_nil_r. f_equal.
  - destruct (en_raw e) as [|c t]; [contradiction|]. cbn [bytes_eqb negb]. rewrite andb_true_r. reflexivity.
  - f_equal. apply map_ext. intros [c [|]]; reflexivity.
Qed.
Theorem C23_newline_complaints_exact : forall (version : bytes) (vcrlf bcrlf : bool) (es : list entry) (body after : bytes) (st : stream) (pos : nat),
  ready st pos ((version ++ eol vcrlf) ++ concat (map entry_text es) ++ eol bcrlf ++ body ++ after) ->
  In version versions -> Forall entry_ok es -> Forall (fun e => en_raw e <> [] /\ header_clean (entry_header e)) es ->
  declared_length (map entry_header es) 0 = Z.of_nat (List.length body) ->
  exists st1,
  read_record st true = (Ret (Some pos, Some (mkrec (RWarc version) (map entry_header (map crlf_entry es))
    (line_complaints vcrlf es) None CF_stream true), []), st1) /\
  fst (stream_read st1 None) = Ret body.
Proof.
  intros version vcrlf bcrlf es body after st pos Hst Hv Hes Hne Hl. destruct (plain_version _ Hv) as (num & Ev & Hn & Has & Hline).
  assert (Has' : version_as (version ++ eol vcrlf) [] [] (B "WARC/") num (eol vcrlf) /\ is_line (version ++ eol vcrlf)).
  { destruct vcrlf; [split; assumption|]. subst version. rewrite <- app_assoc. split.
    - split; [reflexivity|]. split; [reflexivity|]. split; [reflexivity|]. split; [reflexivity|]. split; [intros [|? ?] ? E; discriminate|].
      right; right. split; [reflexivity|]. intros t E. clear - Hn E. destruct Hn as [<-|[<-|[<-|[]]]];
        [change (B "1.0") with (B "1." ++ [48%N]) in E|change (B "0.17") with (B "0.1" ++ [55%N]) in E|change (B "0.18") with (B "0.1" ++ [56%N]) in E];
        apply app_inj_tail in E as [_ E]; discriminate.
    - apply (vline_is_line [] [] (B "WARC/") num); auto; try (intros []; fail). destruct Hn as [<-|[<-|[<-|[]]]]; apply (no_byteb_sound 10); reflexivity. }
  destruct Has' as [Has' Hline'].
  destruct (read_general st pos [] _ _ _ _ _ _ _ bcrlf _ true Hst ltac:(constructor) ltac:(constructor) ltac:(cbn; lia) Hline' Has' Hn Hes) as (st1 & E & E1 & E2 & _).
  exists st1. cbn zeta in E. cbn [junk_lines filter map app concat List.length prefix_errors] in E. rewrite !Nat.add_0_r in E. split.
  - rewrite E. rewrite map_map. rewrite (map_ext _ _ crlf_entry_header). unfold line_complaints. rewrite complaints_of by exact Hne.
    subst version. destruct vcrlf; reflexivity.
  - rewrite Hl in E1. rewrite (read_rest st1 body after); [reflexivity|]. split; assumption.
Qed.
(** the exception: a correct line "Name:" CR LF is reported as having the wrong
    line end *)
Theorem C23_empty_value_spurious : forall (version name body after : bytes) (st : stream) (pos : nat),
  ready st pos ((version ++ CRLF) ++ (name ++ [COLON] ++ CRLF) ++ (B "Content-Length: " ++ dec_nat (List.length body) ++ CRLF) ++ CRLF ++ body ++ after) ->
  In version versions -> name_ok name -> ~ same_name name (B "Content-Type") -> ~ same_name name (B "Content-Length") ->
  exists st1,
  read_record st true = (Ret (Some pos, Some (mkrec (RWarc version) [(name, []); (B "Content-Length", dec_nat (List.length body))]
    [ErrHeaderNl [LF]] None CF_stream true), []), st1).
Proof.
  intros version name body after st pos Hst Hv Hname Hn1 Hn2. destruct (plain_version _ Hv) as (num & Ev & Hn & Has & Hline).
  destruct Hname as (N1 & N2 & N3).
  set (e1 := mkentry name [] true []). set (h2 := (B "Content-Length", dec_nat (List.length body))).
  assert (O2 : header_ok h2) by (split; [apply literal_name_ok; reflexivity|apply dec_value_ok]).
  assert (C2 : header_clean h2) by (split; [intro E; discriminate E|]; intros _; eexists; apply py_int_dec_nat).
  assert (Hes : Forall entry_ok [e1; plain_entry h2]).
  { constructor; [|constructor; [apply plain_entry_ok; exact O2|constructor]].
    split; [exact N1|]. split; [exact N2|]. split; [apply tidy_trimmed in N3; apply N3|]. split; [intros []|]. split; [intro; discriminate|constructor]. }
  assert (Et : concat (map entry_text [e1; plain_entry h2]) = (name ++ [COLON] ++ CRLF) ++ (B "Content-Length: " ++ dec_nat (List.length body) ++ CRLF)).
  { cbn [map concat]. rewrite plain_entry_text. unfold entry_text, entry_line, e1. cbn [en_name en_raw en_crlf en_conts map concat]. rewrite !app_nil_r.
    f_equal. }
  rewrite (app_assoc (name ++ _)), <- Et in Hst. change CRLF with (eol true) in Hst at 2.
  destruct (read_general st pos [] _ _ _ _ _ _ _ true _ true Hst ltac:(constructor) ltac:(constructor) ltac:(cbn; lia) Hline Has Hn Hes) as (st1 & E & E1 & E2 & _).
  exists st1. cbn zeta in E. cbn [junk_lines filter List.length prefix_errors] in E. cbn [map] in E. cbn [app concat List.length] in E. rewrite !Nat.add_0_r in E.
  rewrite E. rewrite (plain_entry_header h2 O2), (plain_entry_errors h2 O2 C2).
  assert (E3 : entry_header e1 = (name, [])) by (unfold entry_header, e1; cbn [en_name en_raw en_conts map join]; rewrite N3; reflexivity).
  assert (E4 : entry_errors e1 = [ErrHeaderNl [LF]]).
  { unfold entry_errors. rewrite E3. unfold value_errors, same_nameb. cbn [fst snd]. unfold same_name in *.
    apply bytes_eqb_neq in Hn1, Hn2. rewrite Hn1, Hn2. reflexivity. }
  rewrite E3, E4. subst version. reflexivity.
Qed.
Definition entry_sample : list entry :=
  [mkentry (B "Subject ") (B " one") true [(B "  two ", true); ([TAB] ++ B "three", false)];
   mkentry (B "Content-Length") (B "4") false []].
Example C13_case : Forall entry_ok entry_sample /\
  map entry_header entry_sample = [(B "Subject", B "one two three"); (B "Content-Length", B "4")] /\
  Forall (fun e => en_raw e <> [] /\ header_clean (entry_header e)) entry_sample /\
  declared_length (map entry_header entry_sample) 0 = Z.of_nat (List.length (B "body")).
Proof.
  split; [|split; [vm_compute; reflexivity|split]].
  - unfold entry_sample. constructor; [|constructor; [|constructor]]; (split; [apply (no_byteb_sound 10); reflexivity|]);
      (split; [apply (no_byteb_sound 58); reflexivity|]); (split; [intros x t E; injection E as <- _; reflexivity|]);
      (split; [apply (no_byteb_sound 10); reflexivity|]); cbn [en_crlf en_raw en_conts].
    + split; [intro; discriminate|]. constructor; [|constructor; [|constructor]]; (split; [apply (no_byteb_sound 10); reflexivity|]).
      * split; [intro; discriminate|]. split; [do 2 eexists; split; reflexivity|exists 116%N; split; [vm_compute; tauto|reflexivity]].
      * split; [|split; [do 2 eexists; split; reflexivity|exists 116%N; split; [vm_compute; tauto|reflexivity]]].
        intros _ t E. change (fst ([TAB] ++ B "three", false)) with (([TAB] ++ B "thre") ++ [101%N]) in E. apply app_inj_tail in E as [_ E]. discriminate.
    + split; [|constructor]. intros _ t E. change (B "4") with ([] ++ [52%N]) in E. apply app_inj_tail in E as [_ E]. discriminate.
  - constructor; [|constructor; [|constructor]]; (split; [discriminate|]); (split; [intro E; discriminate E|]); intro E; [discriminate E|].
    exists 4%Z. vm_compute. reflexivity.
  - vm_compute. reflexivity.
Qed.

(** ** C24 *)
(** which number counts: the last header named Content-Length (any case) whose
    value Python's int() accepts; 0 when there is none *)
Definition valid_length (h : header) : Prop := same_name (fst h) (B "Content-Length") /\ exists z, py_int 10 (snd h) = Some z.
Lemma no_valid_length hs : Forall (fun h => ~ valid_length h) hs -> forall d, declared_length hs d = d.
Proof.
  induction 1 as [|[n v] t Hh _ IH]; intro d; [reflexivity|]. cbn [declared_length]. unfold valid_length, same_nameb, same_name in *. cbn [fst snd] in Hh.
  destruct (bytes_eqb (lower n) (lower (B "Content-Length"))) eqn:E; [|apply IH]. apply bytes_eqb_eq in E.
  destruct (py_int 10 v) as [z|] eqn:Ez; [|apply IH]. exfalso. apply Hh. eauto.
Qed.
Theorem C24_last_valid_length_counts : forall (hs1 hs2 : list header) (n v : bytes) (z : Z),
  same_name n (B "Content-Length") -> py_int 10 v = Some z -> Forall (fun h => ~ valid_length h) hs2 ->
  declared_length (hs1 ++ (n, v) :: hs2) 0 = z.
Proof.
  intros hs1 hs2 n v z Hn Hz H2. rewrite declared_length_app. cbn [declared_length]. unfold same_nameb, same_name in *. rewrite Hn, bytes_eqb_refl, Hz.
  apply no_valid_length. exact H2.
Qed.
Theorem C24_no_valid_length_is_zero : forall hs, Forall (fun h => ~ valid_length h) hs -> declared_length hs 0 = 0%Z.
Proof. intros hs H. apply no_valid_length. exact H. Qed.
(** what reading the whole content then gives; [x] is all that follows the blank
    line that ends the headers *)
Theorem C24_declared_length_bounds_content : forall (version : bytes) (es : list entry) (x : bytes) (st : stream) (pos : nat),
  ready st pos ((version ++ CRLF) ++ concat (map entry_text es) ++ CRLF ++ x) ->
  In version versions -> Forall entry_ok es ->
  let len := declared_length (map entry_header es) 0 in
  exists r st1,
  read_record st true = (Ret (Some pos, Some r, []), st1) /\ r_headers r = map entry_header es /\
  (forall n v, In (n, v) (r_headers r) -> same_name n (B "Content-Length") -> py_int 10 v = None -> In (ErrInvalid n v) (r_errors r)) /\
  fst (stream_read st1 None) =
    (if (0 <=? len)%Z then Ret (firstn (Z.to_nat len) x)
     else if (len =? -1)%Z || negb (f_strict (s_fh st)) then Ret x
     else Raise EValueError).
Proof.
  intros version es x st pos Hst Hv Hes. cbn zeta. destruct (plain_version _ Hv) as (num & Ev & Hn & Has & Hline).
  change CRLF with (eol true) in Hst at 2.
  destruct (read_general st pos [] _ _ _ _ _ _ _ true _ true Hst ltac:(constructor) ltac:(constructor) ltac:(cbn; lia) Hline Has Hn Hes) as (st1 & E & E1 & E2 & _ & _ & E3 & _).
  cbn zeta in E. cbn [concat List.length] in E. rewrite !Nat.add_0_r in E.
  eexists. exists st1. split; [exact E|]. cbn [r_headers r_errors]. split; [reflexivity|]. split.
  - intros n v Hi Hsn Hz. do 3 (apply in_or_app; right). apply in_concat. apply in_map_iff in Hi as (e & Ee & Hi).
    exists (entry_errors e). split; [apply in_map; exact Hi|]. unfold entry_errors. apply in_or_app. right. rewrite Ee.
    unfold value_errors, same_nameb. cbn [fst snd]. unfold same_name in Hsn. rewrite Hsn.
    change (bytes_eqb (lower (B "Content-Length")) (lower (B "Content-Type"))) with false. cbn iota. rewrite bytes_eqb_refl, Hz. left. reflexivity.
  - set (len := declared_length (map entry_header es) 0) in *. unfold stream_read, bounded. rewrite E1. cbn [raw_read]. unfold f_read, f_read_all. rewrite E2, E3.
    destruct (Z.ltb_spec len 0) as [Hneg|Hneg]; destruct (Z.leb_spec 0 len) as [Hp|Hp]; try lia; [|reflexivity].
    destruct ((len =? -1)%Z || negb (f_strict (s_fh st))); reflexivity.
Qed.
Lemma skip_nonpos st e : s_eoc st = Some e -> (e <= 0)%Z -> skip_to_eoc st = (Ret tt, st).
Proof. intros He Hz. unfold skip_to_eoc, file_fuel. cbn [skip_loop]. rewrite He. destruct (Z.ltb_spec 0 e); [lia|reflexivity]. Qed.
Lemma read_nonpos st e b : s_eoc st = Some e -> (e <= 0)%Z -> read_record st b = read_record (fresh st) b.
Proof. intros E1 H. unfold read_record. rewrite E1, (skip_nonpos _ _ E1 H). reflexivity. Qed.
(** with a negative length nothing is skipped: the next record is looked for
    directly after the headers *)
Theorem C24_negative_length_skips_nothing : forall (version : bytes) (es : list entry) (x : bytes) (st : stream) (pos : nat),
  ready st pos ((version ++ CRLF) ++ concat (map entry_text es) ++ CRLF ++ x) ->
  In version versions -> Forall entry_ok es -> (declared_length (map entry_header es) 0 < 0)%Z ->
  exists r st1 st2,
  read_record st true = (Ret (Some pos, Some r, []), st1) /\
  read_record st1 true = read_record st2 true /\
  ready st2 (pos + List.length ((version ++ CRLF) ++ concat (map entry_text es) ++ CRLF)) x.
Proof.
  intros version es x st pos Hst Hv Hes Hneg. destruct (plain_version _ Hv) as (num & Ev & Hn & Has & Hline).
  change CRLF with (eol true) in Hst at 2.
  destruct (read_general st pos [] _ _ _ _ _ _ _ true _ true Hst ltac:(constructor) ltac:(constructor) ltac:(cbn; lia) Hline Has Hn Hes) as (st1 & E & E1 & E2 & E4 & E5 & E3 & E6).
  cbn zeta in E. cbn [concat List.length] in E, E6. rewrite !Nat.add_0_r in *.
  eexists. exists st1, (fresh st1). split; [exact E|]. split.
  - apply (read_nonpos _ _ _ E1). lia.
  - split; [exact E4|]. split; [exact E5|]. split; [reflexivity|]. split; [|exact E2]. cbn. rewrite E6, !app_length. unfold entries_of. cbn [eol]. lia.
Qed.
(** read(-1) ignores the end of the record: it returns everything up to the end
    of the file, and the records after this one are lost *)
Theorem C24_read_minus_one_takes_the_archive : forall (w : wrec) (sep : bytes) (a : archive) (st : stream),
  archive_ok ((w, sep) :: a) -> opened_on (archive_text ((w, sep) :: a)) st ->
  exists r st1 st2,
  read_record st true = (Ret (Some 0, Some r, []), st1) /\
  stream_read st1 (Some (-1)%Z) = (Ret (w_body w ++ sep ++ archive_text a), st2) /\
  exists off, fst (read_record st2 true) = Ret (off, None, []).
Proof.
  intros w sep a st Hok [strict ->]. pose proof (Forall_inv Hok) as [Hw Hs]. cbn [fst snd] in *.
  destruct (read_first (new_stream SPlain (mkfile (archive_text ((w, sep) :: a)) 0 strict) PWarc) 0 w sep a true) as (st1 & E & Hi & Hk & Hp & _ & Hpos); auto.
  { left. split; [reflexivity|]. exists []. split; [reflexivity|]. split; [|reflexivity]. split; [intros c []|left; reflexivity]. }
  { discriminate. }
  destruct Hi as [He Hr]. cbn [s_kind new_stream item_offset] in E.
  assert (E2 : stream_read st1 (Some (-1)%Z) = (Ret (w_body w ++ sep ++ archive_text a), moved st1 (List.length (w_body w ++ sep ++ archive_text a)) (Z.of_nat (List.length (w_body w)) - Z.of_nat (List.length (w_body w ++ sep ++ archive_text a))))).
  { unfold stream_read, bounded. rewrite He, Z.min_l by lia. cbn [raw_read]. unfold f_read, f_read_all. cbn [Z.ltb Z.compare Z.eqb orb]. unfold rest in Hr. rewrite Hr.
    f_equal. unfold count_down, moved. change (s_eoc (set_fh st1 ?f)) with (s_eoc st1). rewrite He. reflexivity. }
  eexists. exists st1. eexists. split; [exact E|]. split; [exact E2|].
  set (n := List.length (w_body w ++ sep ++ archive_text a)) in *.
  exists (Some (pos st1 + n)).
  rewrite (read_nonpos (moved st1 n _) (Z.of_nat (List.length (w_body w)) - Z.of_nat n) true eq_refl) by (unfold n; rewrite app_length; lia).
  change (fresh (moved st1 n ?e)) with (fresh (adv st1 n)).
  assert (Hend : at_text (fresh (adv st1 n)) (pos st1 + n) []).
  { left. split; [reflexivity|]. exists []. split; [|split; [split; [intros c []|left; reflexivity]|cbn [List.length]; rewrite Nat.add_0_r; reflexivity]].
    change (rest (fresh (adv st1 n))) with (rest (adv st1 n)). rewrite rest_adv, Hr. unfold n. rewrite skipn_all. reflexivity. }
  destruct (read_last (fresh (adv st1 n)) (pos st1 + n) true Hend Hp) as [st3 E3]; [change (s_kind st1 <> SGzipFile); rewrite Hk; discriminate|].
  change (s_kind (fresh (adv st1 n))) with (s_kind st1) in E3. rewrite Hk in E3. rewrite E3. reflexivity.
Qed.
Example C24_case : declared_length [(B "content-length", B "7"); (B "Content-Length", B "x"); (B "CONTENT-LENGTH", B " -1 ")] 0 = (-1)%Z.
Proof. vm_compute. reflexivity. Qed.
