(** The HTTP parser on arbitrary bytes: lines, numerals, start lines. *)
From Verif Require Import RegexFacts.
From Verif Require Export HttpAny HttpBody.
From Coq Require Import String List Lia ZArith.
Open Scope list_scope.

(** ** numerals may be followed by a line end *)
Lemma digit_val_lf base : digit_val base LF = None. Proof. reflexivity. Qed.
Lemma int_digits_lf base s : forall acc us, int_digits base acc us (s ++ [LF]) =
  match int_digits base acc us s with Some (v, r) => Some (v, r ++ [LF]) | None => None end.
Proof.
  induction s as [|c s IH]; intros acc us.
  - cbn [app int_digits]. change (N.eqb LF 95) with false. rewrite digit_val_lf. destruct us; reflexivity.
  - cbn [app int_digits]. destruct (N.eqb c 95); [destruct us; [reflexivity|apply IH]|].
    destruct (digit_val base c); [apply IH|]. destruct us; reflexivity.
Qed.
Lemma int_unsigned_lf base s : int_unsigned base (s ++ [LF]) =
  match int_unsigned base s with Some (v, r) => Some (v, r ++ [LF]) | None => None end.
Proof.
  destruct s as [|c s]; [reflexivity|]. unfold int_unsigned. cbn [app]. destruct (digit_val base c); [|reflexivity].
  change (c :: s ++ [LF]) with ((c :: s) ++ [LF]). apply int_digits_lf.
Qed.
Lemma int_prefix_lf base s : int_unsigned base (int_prefix base (s ++ [LF])) = int_unsigned base (int_prefix base s ++ [LF]).
Proof.
  destruct s as [|c [|x t]]; [reflexivity|..].
  - cbn [app]. unfold int_prefix. destruct (N.eq_dec c 48) as [->|Hc].
    + replace (N.eqb LF 120 || N.eqb LF 88) with false by reflexivity. rewrite Bool.andb_false_r. reflexivity.
    + destruct c as [|p]; [reflexivity|]. do 6 (destruct p as [p|p|]; try reflexivity). contradiction.
  - cbn [app]. unfold int_prefix. destruct (N.eq_dec c 48) as [->|Hc].
    + destruct (Z.eqb base 16 && (N.eqb x 120 || N.eqb x 88)); [|reflexivity].
      destruct t as [|y t]; [reflexivity|]. cbn [app].
      destruct y as [|p]; [reflexivity|]. do 7 (destruct p as [p|p|]; try reflexivity).
    + destruct c as [|p]; [reflexivity|]. do 6 (destruct p as [p|p|]; try reflexivity). contradiction.
Qed.
Lemma lstrip_lf s : lstrip (s ++ [LF]) = match lstrip s with [] => [] | _ => lstrip s ++ [LF] end.
Proof.
  unfold lstrip. induction s as [|c s IH]; [reflexivity|]. cbn [app drop_while]. destruct (is_space c); [exact IH|]. reflexivity.
Qed.
Lemma int_sign_lf s : s <> [] -> int_sign (s ++ [LF]) = (fst (int_sign s), snd (int_sign s) ++ [LF]).
Proof.
  intro H. destruct s as [|c s]; [contradiction|]. cbn [app]. unfold int_sign. destruct c as [|p]; [reflexivity|].
  do 6 (destruct p as [p|p|]; try reflexivity).
Qed.
Lemma py_int_lf base s : py_int base (s ++ [LF]) = py_int base s.
Proof.
  unfold py_int. rewrite lstrip_lf. destruct (lstrip s) as [|c t] eqn:E; [reflexivity|].
  rewrite int_sign_lf by discriminate. destruct (int_sign (c :: t)) as [neg s2]. cbn [fst snd].
  rewrite int_prefix_lf, int_unsigned_lf. destruct (int_unsigned base (int_prefix base s2)) as [[v r]|]; [|reflexivity].
  rewrite lstrip_lf. destruct (lstrip r) as [|x y] eqn:Er; reflexivity.
Qed.
Lemma size_iff l o : size_of l o <-> chunk_size (l ++ [LF]) = o.
Proof.
  unfold size_of, chunk_size. destruct (split_once 59 (l ++ [LF])) as [[a e]|] eqn:E.
  - apply split_once_some in E as [E Ha]. assert (X : exists e', l = a ++ [59%N] ++ e').
    { destruct (last_case e) as [-> |(e' & c & ->)].
      - change (a ++ 59%N :: []) with (a ++ [59%N]) in E. apply app_inj_tail in E as [_ E]. discriminate.
      - exists e'. change (a ++ 59%N :: e' ++ [c]) with (a ++ ([59%N] ++ e') ++ [c]) in E. rewrite app_assoc in E. apply app_inj_tail in E as [E _]. exact E. }
    destruct X as [e' ->]. split.
    + intros [(a1 & e1 & E1 & Ha1 & ->)|[H _]].
      * assert (Q : split_once 59 (a1 ++ 59%N :: e1) = Some (a1, e1)) by (apply split_once_hit; exact Ha1).
        change (a1 ++ 59%N :: e1) with (a1 ++ [59%N] ++ e1) in Q. rewrite <- E1 in Q.
        assert (Q2 : split_once 59 (a ++ 59%N :: e') = Some (a, e')) by (apply split_once_hit; exact Ha).
        change (a ++ 59%N :: e') with (a ++ [59%N] ++ e') in Q2. rewrite Q in Q2. injection Q2 as -> _. reflexivity.
      * exfalso. apply H. apply in_or_app. right. left. reflexivity.
    + intros <-. left. exists a, e'. auto.
  - apply split_once_none in E. assert (Hl : ~ In 59%N l) by (intro X; apply E, in_or_app; auto). rewrite py_int_lf. split.
    + intros [(a1 & e1 & E1 & _)|[_ ->]]; [|reflexivity]. exfalso. apply Hl. rewrite E1. apply in_or_app. right. left. reflexivity.
    + intros <-. auto.
Qed.

(** ** lines *)
Lemma cut_lf l rest : no_lf l -> split_once LF (l ++ [LF] ++ rest) = Some (l, rest).
Proof. intro H. apply split_once_hit. exact H. Qed.
Lemma blank_iff l : in_list (l ++ [LF]) NEWLINES = true <-> blank l.
Proof.
  rewrite newlines_iff. unfold blank. split.
  - intros [E|E].
    + change CRLF with ([CR] ++ [LF]) in E. apply app_inj_tail in E as [E _]. auto.
    + change [LF] with ([] ++ [LF]) in E at 2. apply app_inj_tail in E as [E _]. auto.
  - intros [-> | ->]; auto.
Qed.
Lemma blank_dec l : {blank l} + {~ blank l}.
Proof. destruct (in_list (l ++ [LF]) NEWLINES) eqn:E; [left; apply blank_iff; exact E|right; intro X; apply blank_iff in X; congruence]. Qed.
Lemma not_blank l : ~ blank l -> in_list (l ++ [LF]) NEWLINES = false.
Proof. intro H. destruct (in_list _ _) eqn:E; [|reflexivity]. exfalso. apply H, blank_iff, E. Qed.
Lemma blank_no_lf l : blank l -> no_lf l. Proof. intros [-> | ->]; intros X; [destruct X|destruct X as [X|[]]; discriminate]. Qed.
Lemma folded_lf l : is_folded (l ++ [LF]) = starts_blank l.
Proof. rewrite is_folded_iff. destruct l; reflexivity. Qed.
Lemma blank_not_folded l : blank l -> starts_blank l = false. Proof. intros [-> | ->]; reflexivity. Qed.
Lemma strip_lf s : strip (s ++ [LF]) = strip s. Proof. apply strip_app_r. reflexivity. Qed.
Lemma field_lf n v : ~ In COLON n -> split_field ((n ++ [COLON] ++ v) ++ [LF]) = Ret (strip n, strip v).
Proof.
  intro H. unfold split_field. replace ((n ++ [COLON] ++ v) ++ [LF]) with (n ++ COLON :: (v ++ [LF])) by (rewrite <- app_assoc; reflexivity).
  replace (split_once COLON (n ++ COLON :: (v ++ [LF]))) with (Some (n, v ++ [LF])) by (symmetry; apply split_once_hit; exact H). rewrite strip_lf. reflexivity.
Qed.
Lemma no_field_lf l : ~ In COLON l -> split_field (l ++ [LF]) = Raise EValueError.
Proof.
  intro H. unfold split_field. replace (split_once COLON (l ++ [LF])) with (@None (bytes * bytes)); [reflexivity|].
  symmetry. apply split_once_none. intro X. apply in_app_or in X as [X|[X|[]]]; [auto|discriminate].
Qed.
(** every text is without LF, or a line and a rest *)
Lemma line_case text : no_lf text \/ exists l rest, text = l ++ [LF] ++ rest /\ no_lf l.
Proof.
  destruct (split_once LF text) as [[l rest]|] eqn:E.
  - right. apply split_once_some in E as [E H]. exists l, rest. auto.
  - left. apply split_once_none in E. exact E.
Qed.
Lemma colon_case l : ~ In COLON l \/ exists n v, l = n ++ [COLON] ++ v /\ ~ In COLON n.
Proof.
  destruct (split_once COLON l) as [[n v]|] eqn:E.
  - right. apply split_once_some in E as [E H]. exists n, v. auto.
  - left. apply split_once_none in E. exact E.
Qed.
Lemma app_ne_lf (l rest : bytes) : l ++ [LF] ++ rest <> []. Proof. destruct l; discriminate. Qed.

(** ** [lines_read] is total *)
Lemma lines_total n : forall acc text, List.length text <= n -> exists o, lines_read acc text o.
Proof.
  induction n as [|n IH]; intros acc text Hn.
  - destruct text; [|cbn in Hn; lia]. eexists. apply lr_open. intros [].
  - destruct (line_case text) as [H|(l & rest & -> & Hl)]; [eexists; apply lr_open, H|].
    assert (Hr : List.length rest <= n) by (rewrite !app_length in Hn; cbn in Hn; lia).
    destruct (blank_dec l) as [Hb|Hb]; [eexists; apply lr_blank, Hb|].
    destruct (starts_blank l) eqn:Hs.
    + destruct acc as [|p acc _] using rev_ind; [eexists; apply lr_fold_first; assumption|]. destruct p as [k v].
      destruct (IH (acc ++ [(k, v ++ [SP] ++ strip l)]) rest Hr) as [o Ho]. exists o. apply lr_fold; assumption.
    + destruct (colon_case l) as [Hc|(a & v & -> & Ha)]; [eexists; apply lr_no_colon; assumption|].
      destruct (IH (acc ++ [(strip a, strip v)]) rest Hr) as [o Ho]. exists o. apply lr_field.
      * intro X. apply Hl, in_or_app. auto.
      * intro X. apply Hl, in_or_app. right. apply in_or_app. auto.
      * exact Ha.
      * destruct a; [reflexivity|exact Hs].
      * exact Ho.
Qed.
Lemma lines_no_loop acc text o : lines_read acc text o -> o <> Diverge.
Proof. induction 1; congruence. Qed.
(** ** [chunks_read] is total *)
Lemma chunks_total n : forall first text, List.length text <= n -> exists o, chunks_read first text o.
Proof.
  induction n as [|n IH]; intros first text Hn.
  - destruct text; [|cbn in Hn; lia]. eexists. apply cr_open. intros [].
  - destruct (line_case text) as [H|(l & rest & -> & Hl)]; [eexists; apply cr_open, H|].
    assert (Hr : List.length rest <= n) by (rewrite !app_length in Hn; cbn in Hn; lia).
    destruct (chunk_size (l ++ [LF])) as [z|] eqn:Es; apply size_iff in Es.
    2:{ destruct first; eexists; [apply cr_not_chunks|apply cr_bad_size]; assumption. }
    destruct (Z_lt_le_dec z 0) as [Hz|Hz].
    { destruct rest as [|c rest]; eexists; [cbn [app]; eapply cr_negative_end; eassumption|eapply cr_negative; try eassumption; discriminate]. }
    destruct (Z.eq_dec z 0) as [->|Hz0].
    { destruct (lines_total _ [] rest (le_n _)) as [o Ho]. eexists. eapply cr_last; eassumption. }
    destruct (Z_lt_le_dec (Z.of_nat (List.length rest)) z) as [Hs|Hs]; [eexists; eapply cr_short; eassumption|].
    set (d := firstn (Z.to_nat z) rest). set (more := skipn (Z.to_nat z) rest).
    assert (Hd : Z.of_nat (List.length d) = z) by (unfold d; rewrite firstn_length; lia).
    assert (Hdn : d <> []) by (intro X; rewrite X in Hd; cbn in Hd; lia).
    assert (E : rest = d ++ more) by (unfold d, more; symmetry; apply firstn_skipn). rewrite E in *. clear E. clearbody d more. rewrite <- Hd in Es.
    destruct (line_case more) as [H|(drop & more' & -> & Hd')]; [eexists; apply cr_data_open; eassumption|].
    destruct (IH false more') as [o Ho]; [rewrite !app_length in Hr; cbn in Hr; lia|]. eexists. eapply cr_data; eassumption.
Qed.

(** ** absolute URLs *)
Lemma rstr_inv {A} w : forall pre x g (k : bytes -> bytes -> groups -> option A) r,
  rmatch (rstr w) pre x g k = Some r -> exists y, x = w ++ y /\ k (rev w ++ pre) y g = Some r.
Proof.
  induction w as [|c w IH]; intros pre x g k r H; [exists x; auto|]. cbn [rstr rmatch lit] in H. destruct x as [|d x]; [discriminate|].
  destruct (N.eqb_spec c d) as [->|]; [|discriminate]. apply IH in H as (y & -> & H). exists y. split; [reflexivity|].
  cbn [rev]. rewrite <- app_assoc. exact H.
Qed.
Lemma span_host y : exists host r, y = host ++ r /\ ~ In COLON host /\ ~ In 47%N host /\ (r = [] \/ exists c t, r = c :: t /\ (c = COLON \/ c = 47%N)).
Proof.
  induction y as [|c y IH]; [exists [], []; repeat split; auto|].
  destruct (no_colon_slash c) eqn:E.
  - destruct IH as (host & r & -> & H1 & H2 & H3). exists (c :: host), r. split; [reflexivity|].
    unfold no_colon_slash in E. split; [|split; [|exact H3]]; intros [->|X]; try contradiction; discriminate.
  - exists [], (c :: y). split; [reflexivity|]. split; [auto|]. split; [auto|]. right. exists c, y. split; [reflexivity|].
    unfold no_colon_slash in E. apply Bool.negb_false_iff, Bool.orb_true_iff in E as [E|E]; apply N.eqb_eq in E; auto.
Qed.
Lemma span_digits y : exists p q, y = p ++ q /\ forallb is_digit p = true /\ (forall c t, q = c :: t -> is_digit c = false).
Proof.
  induction y as [|c y IH]; [exists [], []; repeat split; discriminate|].
  destruct (is_digit c) eqn:E.
  - destruct IH as (p & q & -> & H1 & H2). exists (c :: p), q. split; [reflexivity|]. cbn [forallb]. rewrite E. auto.
  - exists [], (c :: y). repeat split. intros d t X. injection X as <- _. exact E.
Qed.
Lemma after_host_total r : exists path, after_host r path.
Proof.
  destruct r as [|c r]; [exists []; apply ah_plain; discriminate|]. destruct (N.eq_dec c COLON) as [->|Hc].
  - destruct (span_digits r) as (p & q & -> & Hp & Hq). destruct p as [|d p].
    + exists (COLON :: q). apply ah_plain. intros c t E. injection E as ->. apply (Hq c t). reflexivity.
    + exists q. apply (ah_port (d :: p) q); [discriminate|exact Hp|exact Hq].
  - exists (c :: r). apply ah_plain. intros d t E. injection E as -> _. contradiction.
Qed.
Lemma url_sound target g : re_match url_rx target = Some g -> exists path, absolute target path.
Proof.
  unfold re_match, url_rx. rewrite rm_seq. cbn [rmatch]. rewrite rmatch_rstr_i. destruct (starts_ci (B "http") target) as [t|] eqn:E; [|discriminate].
  apply starts_ci_some in E as (sch & -> & Hs). cbn [ropt].
  match goal with |- rmatch _ _ _ _ ?K = _ -> _ => set (k := K) end.
  assert (G : forall sch' pre x r, k pre x [] = Some r -> lower sch' = B "http" \/ lower sch' = B "https" -> exists path, absolute (sch' ++ x) path).
  { intros sch' pre x r H Hs'. unfold k in H. apply rstr_inv in H as (y & -> & H). cbn [rplus rmatch] in H.
    destruct y as [|c y]; [discriminate|]. destruct (no_colon_slash c) eqn:Ec; [|discriminate]. clear H.
    destruct (span_host y) as (host & r' & -> & H1 & H2 & H3). destruct (after_host_total r') as [path Hp]. exists path, sch', (c :: host), r'.
    split; [reflexivity|]. split; [exact Hs'|]. split; [discriminate|]. unfold no_colon_slash in Ec.
    split; [intros [->|X]; [discriminate|contradiction]|]. split; [intros [->|X]; [discriminate|contradiction]|]. auto. }
  unfold ropt. cbn [rmatch lit_i]. intro H. destruct t as [|c t].
  - exact (G sch _ _ _ H (or_introl Hs)).
  - destruct (N.eqb (to_lower 115) (to_lower c)) eqn:Ec; [|exact (G sch _ _ _ H (or_introl Hs))].
    match type of H with match ?y with Some _ => _ | None => _ end = _ => destruct y as [z|] eqn:Ez end.
    + replace (sch ++ c :: t) with ((sch ++ [c]) ++ t) by (rewrite <- app_assoc; reflexivity). apply (G (sch ++ [c]) _ _ _ Ez).
      right. unfold lower in *. rewrite map_app, Hs. apply N.eqb_eq in Ec. cbn [map]. rewrite <- Ec. reflexivity.
    + exact (G sch _ _ _ H (or_introl Hs)).
Qed.
Lemma rm_alt {A} a b pre suf g (k : bytes -> bytes -> groups -> option A) :
  rmatch (RAlt a b) pre suf g k = match rmatch a pre suf g k with Some x => Some x | None => rmatch b pre suf g k end.
Proof. reflexivity. Qed.
Lemma url_complete target path : no_lf target -> absolute target path -> exists g, re_match url_rx target = Some g /\ group 1 g = path.
Proof.
  intros Hlf (sch & host & r & -> & Hs & Hh & Hc & Hsl & Hr & Ha). unfold re_match, url_rx.
  assert (Hlfr : no_lf r) by (intro X; apply Hlf; do 3 (apply in_or_app; right); exact X).
  assert (Hlfp : no_lf path).
  { destruct Ha as [p q H1 H2 H3|r' H]; [|exact Hlfr]. intro X. apply Hlfr. do 2 (apply in_or_app; right). exact X. }
  assert (Path : forall pre g, star_greedy dot pre path (fun pre' _ => Some ((1, rev (firstn (List.length pre' - List.length pre) pre')) :: g)) = Some ((1, path) :: g)).
  { intros pre g. rewrite <- (app_nil_r path) at 1. apply star_greedy_stop; [|left; reflexivity|rewrite captured; reflexivity].
    apply forallb_forall. intros c Hin. unfold dot. destruct (N.eqb_spec c 10) as [-> |]; [contradiction|reflexivity]. }
  rewrite rm_seq. change (B "://" ++ ?x) with (58%N :: ([47; 47]%N ++ x)).
  assert (Host : exists g, forall pre, rmatch (RSeq (RGrp 5 (RSeq (RGrp 3 (rplus true no_colon_slash)) (ropt (RSeq (lit 58) (RGrp 4 (rplus true is_digit)))))) (RGrp 1 (RStar true dot)))
     pre (host ++ r) [(2, sch)] (fun _ _ g => Some g) = Some ((1, path) :: g)).
  { destruct Ha as [p q H1 H2 H3|r' H].
    - eexists. intro pre. cbn [rmatch].
      apply (plus_match no_colon_slash host pre); [exact Hh|apply no_colon_slash_all; assumption|right; exists COLON, (p ++ q); split; reflexivity|].
      cbn [ropt rmatch]. rewrite captured. cbn [app lit rmatch]. rewrite N.eqb_refl.
      erewrite (plus_match is_digit p (COLON :: rev host ++ pre)); [reflexivity|exact H1|exact H2| |].
      { destruct q as [|c t]; [auto|]. right. exists c, t. split; [reflexivity|]. apply (H3 c t eq_refl). }
      cbn beta. rewrite captured.
      assert (E : rev (firstn (List.length (rev p ++ COLON :: rev host ++ pre) - List.length pre) (rev p ++ COLON :: rev host ++ pre)) = host ++ COLON :: p).
      { replace (rev p ++ COLON :: rev host ++ pre) with (rev (host ++ COLON :: p) ++ pre).
        - apply captured.
        - rewrite rev_app_distr. cbn [rev]. rewrite <- !app_assoc. reflexivity. }
      rewrite E. rewrite Path. reflexivity.
    - eexists. intro pre. cbn [rmatch].
      apply (plus_match no_colon_slash host pre); [exact Hh|apply no_colon_slash_all; assumption| |].
      { destruct Hr as [->|(c & t & -> & Hc')]; [auto|]. right. exists c, t. split; [reflexivity|]. destruct Hc' as [-> | ->]; reflexivity. }
      cbv beta. rewrite captured. unfold ropt.
      assert (E : forall K : bytes -> bytes -> groups -> option groups, forall pre g, rmatch (RSeq (lit 58) (RGrp 4 (rplus true is_digit))) pre r' g K = None).
      { intros K pre0 g0. cbn [rmatch lit rplus]. destruct r' as [|c t]; [reflexivity|]. destruct (N.eqb_spec 58 c) as [<-|]; [|reflexivity].
        destruct t as [|d t]; [reflexivity|]. rewrite (H d t eq_refl). reflexivity. }
      rewrite rm_alt, E. cbn [rmatch]. rewrite captured, Path. reflexivity. }
  destruct Host as [g Host]. exists ((1, path) :: g). split; [|reflexivity].
  apply (scheme_match sch [] _ [] _ _ Hs).
  change (58%N :: ([47; 47]%N ++ ?x)) with (B "://" ++ x). cbv beta. rewrite rm_seq, rstr_match. apply Host.
Qed.

(** ** start lines *)
Lemma trimmed_rstrip l t : trims_to l t -> rstrip (l ++ [LF]) = t.
Proof.
  intros (w & -> & Hw & Ht). rewrite <- app_assoc. apply rstrip_pad; [exact Ht|]. rewrite forallb_app, Hw. reflexivity.
Qed.
Lemma trimmed_total l : exists t, trims_to l t.
Proof.
  induction l as [|c l IH] using rev_ind; [exists [], []; repeat split; intros t c E; destruct t; discriminate|].
  destruct (is_space c) eqn:E.
  - destruct IH as (t & w & -> & Hw & Ht). exists t, (w ++ [c]). rewrite <- app_assoc. split; [reflexivity|].
    rewrite forallb_app, Hw. cbn [forallb]. rewrite E. auto.
  - exists (l ++ [c]), []. rewrite app_nil_r. repeat split. intros t d X. apply app_inj_tail in X as [_ <-]. exact E.
Qed.
Lemma split_hit sep a b : ~ In sep a -> split_once sep (a ++ [sep] ++ b) = Some (a, b).
Proof. intro H. apply split_once_hit. exact H. Qed.
Lemma split_three a b c : ~ In SP a -> ~ In SP b -> split_max 2 SP (a ++ [SP] ++ b ++ [SP] ++ c) = [a; b; c].
Proof. intros Ha Hb. cbn [split_max]. rewrite split_hit by exact Ha. rewrite split_hit by exact Hb. reflexivity. Qed.
Lemma split_two a b : ~ In SP a -> ~ In SP b -> split_max 2 SP (a ++ [SP] ++ b) = [a; b].
Proof. intros Ha Hb. cbn [split_max]. rewrite split_hit by exact Ha. apply split_once_none in Hb. rewrite Hb. reflexivity. Qed.
Lemma split_max_cases t : (split_max 2 SP t = [t]) \/
  (exists a b, t = a ++ [SP] ++ b /\ ~ In SP a /\ ~ In SP b /\ split_max 2 SP t = [a; b]) \/
  (exists a b c, t = a ++ [SP] ++ b ++ [SP] ++ c /\ ~ In SP a /\ ~ In SP b /\ split_max 2 SP t = [a; b; c]).
Proof.
  destruct (split_once SP t) as [[a x]|] eqn:E; [|left; cbn [split_max]; rewrite E; reflexivity]. right.
  apply split_once_some in E as [E Ha]. destruct (split_once SP x) as [[b c]|] eqn:E2.
  - right. apply split_once_some in E2 as [E2 Hb]. exists a, b, c. subst x t. split; [reflexivity|]. split; [exact Ha|]. split; [exact Hb|]. apply split_three; assumption.
  - left. apply split_once_none in E2. exists a, x. subst t. split; [reflexivity|]. split; [exact Ha|]. split; [exact E2|]. apply split_two; assumption.
Qed.
Lemma split_all_ne s : split_all COLON s <> [].
Proof. destruct s as [|c s]; [discriminate|]. cbn [split_all]. destruct (N.eqb c COLON); [discriminate|]. destruct (split_all COLON s); discriminate. Qed.
Lemma split_all_cons n v : ~ In COLON n -> split_all COLON (n ++ [COLON] ++ v) = n :: split_all COLON v.
Proof.
  induction n as [|c n IH]; intro H; [reflexivity|]. cbn [app split_all]. destruct (N.eqb_spec c COLON) as [->|_]; [exfalso; apply H; left; reflexivity|].
  change (n ++ COLON :: v) with (n ++ [COLON] ++ v). rewrite IH; [reflexivity|]. intro X. apply H. right. exact X.
Qed.
Lemma split_all_none s : ~ In COLON s -> split_all COLON s = [s].
Proof.
  induction s as [|c s IH]; intro H; [reflexivity|]. cbn [split_all]. destruct (N.eqb_spec c COLON) as [->|_]; [exfalso; apply H; left; reflexivity|].
  rewrite IH; [reflexivity|]. intro X. apply H. right. exact X.
Qed.
Lemma split_all_pair s a b : split_all COLON s = [a; b] -> s = a ++ [COLON] ++ b /\ ~ In COLON a /\ ~ In COLON b.
Proof.
  intro H. destruct (colon_case s) as [Hn|(n & v & -> & Hn)]; [rewrite split_all_none in H by exact Hn; discriminate|].
  rewrite split_all_cons in H by exact Hn. destruct (colon_case v) as [Hv|(n2 & v2 & -> & Hn2)].
  - rewrite split_all_none in H by exact Hv. injection H as -> ->. auto.
  - rewrite split_all_cons in H by exact Hn2. destruct (split_all COLON v2) eqn:E; [apply split_all_ne in E; contradiction|discriminate].
Qed.
Definition kind_of (k : hkind) (kind : option bytes) : Prop :=
  match kind, k with
  | None, KRequest _ _ _ _ => True
  | Some rm, KResponse rm' _ _ _ => rm' = rm
  | _, _ => False
  end.
Lemma sub_no_lf (l t : bytes) (a b c : bytes) : no_lf l -> trims_to l t -> t = a ++ b ++ c -> no_lf b.
Proof. intros Hl (w & -> & _) -> X. apply Hl, in_or_app. left. apply in_or_app. right. apply in_or_app. left. exact X. Qed.
Lemma start_complete kind h l s : kind_of (h_kind h) kind -> h_keep_alive h = false -> no_lf l -> start_line kind l s ->
  set_start_line h (l ++ [LF]) = Ret (set_kind h s).
Proof.
  intros Hk Hka Hl Hs. unfold set_start_line.
  assert (K : forall k, set_keep (set_kind h k) false = set_kind h k) by (intro k; unfold set_keep, set_kind; cbn; rewrite Hka; reflexivity).
  destruct Hs as [rm l version code c Ht H1 H2 H3|rm l version code c phrase Ht H1 H2 H3|l method host port version Ht H1 H2 H3 H4 H5
    |l method target path version Ht H1 H2 H3 H4|l method target version Ht H1 H2 H3 H4]; unfold kind_of in Hk; destruct (h_kind h) as [? ? ? ?|rm' ? ? ?]; try contradiction; rewrite (trimmed_rstrip _ _ Ht).
  - subst rm'. rewrite split_two by assumption. rewrite H3. destruct (bytes_eqb version (B "HTTP/1.0")); [rewrite K|]; reflexivity.
  - subst rm'. rewrite split_three by assumption. rewrite H3. destruct (bytes_eqb version (B "HTTP/1.0")); [rewrite K|]; reflexivity.
  - rewrite split_three by assumption. rewrite H3, bytes_eqb_refl, split_all_two by assumption. reflexivity.
  - rewrite split_three by assumption. replace (bytes_eqb (upper method) (B "CONNECT")) with false by (symmetry; apply bytes_eqb_neq; exact H3).
    destruct (url_complete target path) as (g & -> & Hg); [|exact H4|].
    { apply (sub_no_lf l _ (method ++ [SP]) target ([SP] ++ version) Hl Ht). rewrite <- app_assoc. reflexivity. }
    rewrite Hg. destruct path; reflexivity.
  - rewrite split_three by assumption. replace (bytes_eqb (upper method) (B "CONNECT")) with false by (symmetry; apply bytes_eqb_neq; exact H3).
    destruct (re_match url_rx target) as [g|] eqn:E; [|reflexivity]. apply url_sound in E as [path E]. destruct (H4 path E).
Qed.
Lemma start_sound kind h l : kind_of (h_kind h) kind -> no_lf l ->
  (exists s, start_line kind l s) \/ set_start_line h (l ++ [LF]) = Raise EValueError.
Proof.
  intros Hk Hl. unfold set_start_line. destruct (trimmed_total l) as [t Ht]. rewrite (trimmed_rstrip _ _ Ht).
  unfold kind_of in Hk. destruct kind as [rm|], (h_kind h) as [? ? ? ?|rm' ? ? ?]; try contradiction.
  - destruct (split_max_cases t) as [E|[(a & b & E0 & Ha & Hb & E)|(a & b & c & E0 & Ha & Hb & E)]]; rewrite E; [auto| |].
    + destruct (py_int 10 b) as [z|] eqn:Ez; [|auto]. left. subst t. eexists. eapply sl_status; eassumption.
    + destruct (py_int 10 b) as [z|] eqn:Ez; [|auto]. left. subst t. eexists. eapply sl_phrase; eassumption.
  - destruct (split_max_cases t) as [E|[(a & b & E0 & Ha & Hb & E)|(a & b & c & E0 & Ha & Hb & E)]]; rewrite E; [auto..|].
    destruct (bytes_eqb (upper a) (B "CONNECT")) eqn:Ec.
    + apply bytes_eqb_eq in Ec. destruct (split_all COLON b) as [|x [|y [|z q]]] eqn:Es; auto.
      apply split_all_pair in Es as (-> & Hx & Hy). subst t. left. eexists. eapply sl_connect; eassumption.
    + apply bytes_eqb_neq in Ec. left. subst t. destruct (re_match url_rx b) as [g|] eqn:Eg.
      * apply url_sound in Eg as [path Hp]. eexists. eapply sl_url; eassumption.
      * eexists. eapply sl_plain; try eassumption. intros path Hp. destruct (url_complete b path) as (g & E' & _); [|exact Hp|congruence].
        apply (sub_no_lf l _ (a ++ [SP]) b ([SP] ++ c) Hl Ht). rewrite <- app_assoc. reflexivity.
Qed.
