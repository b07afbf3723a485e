(** Closed forms of the regular expressions of the WARC reader on single lines. *)
From Verif Require Export RegexFacts.
From Coq Require Import String List.
Open Scope list_scope.

(** ** Blank lines *)
Definition blank_line (l : bytes) : bool :=
  match l with
  | c :: t => N.eqb c 13 || (N.eqb c 10 && match t with [] => true | _ => false end)
  | [] => false
  end.
Lemma nl_rx_test l : re_test nl_rx l = blank_line l.
Proof.
  unfold re_test, re_match, nl_rx, lit. cbn [rmatch].
  destruct l as [|c t]; [reflexivity|]. cbn [blank_line].
  rewrite (N.eqb_sym c 13), (N.eqb_sym c 10).
  destruct (N.eqb_spec 13 c) as [E|E].
  - destruct t as [|d u]; [reflexivity|]. destruct (10 =? d)%N; reflexivity.
  - destruct (10 =? c)%N; [|reflexivity]. destruct t; reflexivity.
Qed.

(** ^[\r\n]+$ : on a single line, non-empty and made of CR and LF only *)
Definition crlf_only (l : bytes) : bool :=
  match l with [] => false | _ => forallb is_crlf l end.
Lemma star_greedy_all {A} p s : forall pre (k : bytes -> bytes -> option A) r,
  forallb p s = true -> k (rev s ++ pre) [] = Some r -> star_greedy p pre s k = Some r.
Proof.
  induction s as [|c s IH]; intros pre k r H Hk; cbn [star_greedy]; [exact Hk|].
  cbn [forallb] in H. apply andb_true_iff in H as [H1 H2]. rewrite H1.
  rewrite (IH (c :: pre) k r H2); [reflexivity|]. cbn [rev] in Hk. rewrite <- app_assoc in Hk. exact Hk.
Qed.
Lemma star_greedy_some {A} p s : forall pre (k : bytes -> bytes -> option A) r,
  star_greedy p pre s k = Some r -> exists u v, s = u ++ v /\ forallb p u = true /\ k (rev u ++ pre) v = Some r.
Proof.
  induction s as [|c s IH]; intros pre k r; cbn [star_greedy]; intro H.
  - exists [], []. auto.
  - destruct (p c) eqn:Ec.
    + destruct (star_greedy p (c :: pre) s k) as [x|] eqn:E.
      * injection H as ->. destruct (IH _ _ _ E) as (u & v & -> & Hu & Hk).
        exists (c :: u), v. cbn [forallb rev]. rewrite Ec, <- app_assoc. auto.
      * exists [], (c :: s). auto.
    + exists [], (c :: s). auto.
Qed.
Lemma is_crlf_lf : is_crlf 10 = true. Proof. reflexivity. Qed.
Lemma crlf_line_test l : re_test crlf_line_rx l = crlf_only l.
Proof.
  unfold re_test, re_match, crlf_line_rx, rplus. cbn [rmatch].
  destruct l as [|c t]; [reflexivity|]. unfold crlf_only.
  destruct (forallb is_crlf (c :: t)) eqn:E.
  - cbn [forallb] in E. apply andb_true_iff in E as [E1 E2]. rewrite E1.
    rewrite (star_greedy_all (A:=groups) is_crlf t _ _ ([] : groups) E2); reflexivity.
  - cbn [forallb] in E. destruct (is_crlf c) eqn:Ec; [|reflexivity].
    cbn [andb] in E.
    destruct (star_greedy _ _ _ _) as [x|] eqn:Es; [|reflexivity].
    apply star_greedy_some in Es as (u & v & -> & Hu & Hk).
    rewrite forallb_app, Hu in E. cbn [andb] in E.
    destruct v as [|a [|b v]]; [discriminate| |].
    + destruct (N.eq_dec a 10) as [->|Ha]; [discriminate|].
      exfalso. revert Hk. destruct a as [|q0]; [discriminate|]. do 4 (destruct q0 as [q0|q0|]; try discriminate; try congruence).
    + exfalso. revert Hk. destruct a as [|q0]; [discriminate|]. do 4 (destruct q0 as [q0|q0|]; try discriminate).
Qed.

(** ** Header lines *)
Definition after_colon (rest : bytes) : option (bytes * bytes) :=
  match rest with
  | [] => None
  | c :: t => if is_space c then
                match chop t with Some p => Some p | None => chop rest end
              else chop rest
  end.
(** name, raw value and line end of a header line *)
Definition header_parts (l : bytes) : option (bytes * bytes * bytes) :=
  match split_once 58 l with
  | None => None
  | Some (name, rest) =>
      match after_colon rest with
      | Some (v, nl) => Some (name, v, nl)
      | None => None
      end
  end.

Lemma after_colon_none rest : ~ ends_nl rest -> after_colon rest = None.
Proof.
  intro H. destruct rest as [|c t]; [reflexivity|]. cbn [after_colon].
  assert (E : chop (c :: t) = None) by (apply chop_none; exact H).
  rewrite E. destruct (is_space c); [|reflexivity].
  assert (E2 : chop t = None).
  { apply chop_none. intro Ht. apply H. apply ends_nl_cons. exact Ht. }
  rewrite E2. reflexivity.
Qed.
Lemma after_colon_some rest : ends_nl rest -> exists v nl, after_colon rest = Some (v, nl).
Proof.
  intro H. apply chop_ends in H as [[v nl] H]. destruct rest as [|c t]; [discriminate|]. cbn [after_colon].
  destruct (is_space c); [|eauto]. destruct (chop t) as [[v' nl']|]; eauto.
Qed.
Lemma after_colon_strip rest v nl : after_colon rest = Some (v, nl) -> strip v = strip rest.
Proof.
  destruct rest as [|c t]; [discriminate|]. cbn [after_colon].
  destruct (is_space c) eqn:Ec; [|apply chop_strip].
  destruct (chop t) as [[v' nl']|] eqn:E; [|apply chop_strip].
  intro H. injection H as <- <-. rewrite strip_cons by exact Ec. apply (chop_strip _ _ _ E).
Qed.

Lemma colon_tail pre rest g : one_line rest ->
  rmatch (RSeq (ropt (RChr is_space)) (RSeq (RGrp g_value (RStar false dot)) (RSeq nl_alt REos)))
    pre rest g kend =
  match after_colon rest with
  | Some (v, nl) => Some ((g_nl, nl) :: (g_value, v) :: g)
  | None => None
  end.
Proof.
  intro H. unfold ropt.
  change (rmatch (RSeq (RAlt (RChr is_space) REps) (RSeq (RGrp g_value (RStar false dot)) (RSeq nl_alt REos))) pre rest g kend)
    with (match match rest with
                | c :: t => if is_space c then
                    rmatch (RSeq (RGrp g_value (RStar false dot)) (RSeq nl_alt REos)) (c :: pre) t g kend else None
                | [] => None
                end with
          | Some x => Some x
          | None => rmatch (RSeq (RGrp g_value (RStar false dot)) (RSeq nl_alt REos)) pre rest g kend
          end).
  rewrite (grp_lazy_nl g_value pre rest g H). destruct rest as [|c t]; [reflexivity|]. cbn [after_colon].
  destruct (is_space c); [|reflexivity].
  rewrite (grp_lazy_nl g_value (c :: pre) t g (one_line_tl _ _ H)).
  destruct (chop t) as [[v nl]|]; reflexivity.
Qed.

Definition colon_k (pre0 : bytes) (g : groups) : bytes -> bytes -> option groups :=
  fun pre' suf' =>
    rmatch (RSeq (lit 58) (RSeq (ropt (RChr is_space)) (RSeq (RGrp g_value (RStar false dot)) (RSeq nl_alt REos))))
      pre' suf' ((g_name, rev (firstn (length pre' - length pre0) pre')) :: g) kend.
Lemma colon_k_eq pre0 g pre suf : one_line suf -> colon_k pre0 g pre suf =
  match suf with
  | x :: t => if N.eqb 58 x then
      match after_colon t with
      | Some (v, nl) => Some ((g_nl, nl) :: (g_value, v) :: (g_name, rev (firstn (length pre - length pre0) pre)) :: g)
      | None => None
      end else None
  | [] => None
  end.
Proof.
  intro H. unfold colon_k. destruct suf as [|x t]; [reflexivity|].
  change (rmatch (RSeq (lit 58) ?r) pre (x :: t) ?gg kend) with (if N.eqb 58 x then rmatch r (x :: pre) t gg kend else None).
  destruct (58 =? x)%N; [|reflexivity]. apply colon_tail. exact (one_line_tl _ _ H).
Qed.
Lemma lazy_colon_none pre0 g suf : forall pre, one_line suf -> ~ ends_nl suf ->
  star_lazy dot pre suf (colon_k pre0 g) = None.
Proof.
  induction suf as [|c t IH]; intros pre H He; cbn [star_lazy]; rewrite colon_k_eq by exact H; [reflexivity|].
  assert (Ht : ~ ends_nl t) by (intro; apply He; apply ends_nl_cons; assumption).
  rewrite after_colon_none by exact Ht. destruct (58 =? c)%N; destruct (dot c); try reflexivity;
    apply IH; [exact (one_line_tl _ _ H)|exact Ht|exact (one_line_tl _ _ H)|exact Ht].
Qed.
Lemma lazy_colon pre0 g suf : forall acc, one_line suf ->
  star_lazy dot (rev acc ++ pre0) suf (colon_k pre0 g) =
  match split_once 58 suf with
  | None => None
  | Some (name, rest) =>
      match after_colon rest with
      | Some (v, nl) => Some ((g_nl, nl) :: (g_value, v) :: (g_name, acc ++ name) :: g)
      | None => None
      end
  end.
Proof.
  induction suf as [|c t IH]; intros acc H; cbn [star_lazy split_once]; rewrite colon_k_eq by exact H; [reflexivity|].
  rewrite (N.eqb_sym c 58). destruct (N.eqb_spec 58 c) as [<-|Hc].
  - rewrite cap_rev, app_nil_r. destruct (after_colon t) as [[v nl]|] eqn:E; [reflexivity|].
    cbn. apply lazy_colon_none; [exact (one_line_tl _ _ H)|].
    intro He. apply after_colon_some in He as (v & nl & He). congruence.
  - unfold dot at 1. destruct (N.eqb_spec c 10) as [->|Hl].
    + apply one_line_head_lf in H. subst t. reflexivity.
    + cbn [negb]. specialize (IH (acc ++ [c]) (one_line_tl _ _ H)).
      rewrite rev_app_distr in IH. cbn [rev app] in IH. rewrite IH.
      destruct (split_once 58 t) as [[name rest]|]; [|reflexivity].
      destruct (after_colon rest) as [[v nl]|]; [|reflexivity]. rewrite <- app_assoc. reflexivity.
Qed.
Theorem header_rx_form l : one_line l ->
  re_match header_rx l =
  match header_parts l with
  | Some (n, v, nl) => Some [(g_nl, nl); (g_value, v); (g_name, n)]
  | None => None
  end.
Proof.
  intro H. transitivity (star_lazy dot (rev [] ++ []) l (colon_k [] [])); [reflexivity|].
  rewrite (lazy_colon [] [] l [] H). unfold header_parts.
  destruct (split_once 58 l) as [[name rest]|]; [|reflexivity].
  destruct (after_colon rest) as [[v nl]|]; reflexivity.
Qed.

(** ** Continuation lines *)
Definition cont_line (l : bytes) : bool :=
  match l with
  | c :: _ :: _ :: _ => is_space c && is_crlf (last l 0%N)
  | _ => false
  end.
Definition cont_nl (l : bytes) : bytes :=
  if forallb is_space l then [last l 0%N]
  else match chop l with Some (_, nl) => nl | None => [] end.

Lemma cont_line_intro c t : is_space c = true -> is_crlf (last (c :: t) 0%N) = true -> 2 <= length t ->
  cont_line (c :: t) = true.
Proof. intros H1 H2 H3. destruct t as [|a [|b t]]; simpl in H3; try lia. unfold cont_line. rewrite H1, H2. reflexivity. Qed.

Definition value_k (g : groups) : bytes -> bytes -> option groups :=
  fun pre suf => rmatch (RSeq (RGrp g_value (rplus false dot)) (RSeq nl_alt REos)) pre suf g kend.
Lemma value_k_eq g pre suf : one_line suf -> value_k g pre suf =
  match suf with
  | c :: t => if dot c then match chop t with
                            | Some (v, nl) => Some ((g_nl, nl) :: (g_value, c :: v) :: g)
                            | None => None
                            end else None
  | [] => None
  end.
Proof.
  intro H. unfold value_k, rplus. destruct suf as [|c t]; [reflexivity|].
  change (rmatch (RSeq (RGrp g_value (RSeq (RChr dot) (RStar false dot))) (RSeq nl_alt REos)) pre (c :: t) g kend)
   with (if dot c then star_lazy dot (rev [c] ++ pre) t
           (fun pre' suf' => rmatch (RSeq nl_alt REos) pre' suf'
              ((g_value, rev (firstn (length pre' - length pre) pre')) :: g) kend) else None).
  destruct (dot c); [|reflexivity]. rewrite (lazy_nl g_value t pre [c] g (one_line_tl _ _ H)). reflexivity.
Qed.
Lemma value_k_none g pre suf : one_line suf -> ~ ends_nl suf -> value_k g pre suf = None.
Proof.
  intros H He. rewrite value_k_eq by exact H. destruct suf as [|c t]; [reflexivity|].
  destruct (dot c); [|reflexivity].
  assert (E : chop t = None) by (apply chop_none; intro; apply He, ends_nl_cons; assumption). rewrite E. reflexivity.
Qed.
Lemma star_value_none g s : forall pre, one_line s -> ~ ends_nl s -> star_greedy is_space pre s (value_k g) = None.
Proof.
  induction s as [|c t IH]; intros pre H He; cbn [star_greedy]; [apply value_k_none; assumption|].
  rewrite (value_k_none g pre (c :: t)) by assumption. destruct (is_space c); [|reflexivity].
  rewrite IH; [reflexivity|exact (one_line_tl _ _ H)|]. intro. apply He, ends_nl_cons. assumption.
Qed.
Lemma star_greedy_hit {A} p u s (k : bytes -> bytes -> option A) r : forall pre, forallb p u = true ->
  star_greedy p (rev u ++ pre) s k = Some r -> star_greedy p pre (u ++ s) k = Some r.
Proof.
  induction u as [|c u IH]; intros pre Hu H; [exact H|].
  cbn [forallb] in Hu. apply andb_true_iff in Hu as [H1 H2]. cbn [app star_greedy]. rewrite H1.
  rewrite (IH (c :: pre) H2); [reflexivity|]. cbn [rev] in H. rewrite <- app_assoc in H. exact H.
Qed.
Lemma is_crlf_ends l : l <> [] -> (is_crlf (last l 0%N) = true <-> ends_nl l).
Proof.
  intro Hn. destruct (last_case l) as [->|(t & c & ->)]; [contradiction|]. rewrite last_last.
  unfold is_crlf. split.
  - intro H. exists t, c. split; [reflexivity|]. apply orb_true_iff in H as [H|H]; apply N.eqb_eq in H; auto.
  - intros (u & d & E & H). apply app_inj_tail in E as [_ <-]. destruct H as [->| ->]; reflexivity.
Qed.
Lemma is_crlf_space c : is_crlf c = true -> is_space c = true.
Proof. unfold is_crlf, is_space. lia. Qed.
Lemma not_space_no_nl c t : is_space c = false -> ends_nl (c :: t) -> ends_nl t.
Proof. intros Hc (u & d & E & H). destruct u as [|x u].
  - injection E as -> _. destruct H as [->| ->]; discriminate.
  - injection E as -> ->. exists u, d. auto. Qed.
Lemma chop_cons c t v nl : chop t = Some (v, nl) -> is_space c = false -> chop (c :: t) = Some (c :: v, nl).
Proof.
  intros H Hc. rewrite chop_here, H.
  destruct (bytes_eqb (c :: t) CRLF) eqn:E1.
  { apply bytes_eqb_eq in E1. injection E1 as -> _. discriminate. }
  destruct (_ || _) eqn:E2; [|reflexivity].
  apply orb_true_iff in E2 as [E|E]; apply bytes_eqb_eq in E; injection E as -> _; discriminate.
Qed.
Lemma chop_app u t v nl : chop t = Some (v, nl) -> (exists c w, t = c :: w /\ is_space c = false) ->
  chop (u ++ t) = Some (u ++ v, nl).
Proof.
  intros H (c & w & E & Hc). induction u as [|x u IH]; [exact H|]. simpl app at 1. rewrite chop_here, IH.
  assert (L : 2 <= length t).
  { pose proof (chop_some _ _ _ H) as E1. assert (He : ends_nl t) by (apply chop_ends; eauto). rewrite E in He.
    apply not_space_no_nl in He; [|exact Hc]. destruct He as (q & d & -> & _). rewrite E. simpl. rewrite app_length. simpl. lia. }
  destruct (bytes_eqb (x :: u ++ t) CRLF) eqn:E1.
  { apply bytes_eqb_eq in E1. apply (f_equal (@length _)) in E1. simpl in E1. rewrite app_length in E1. lia. }
  destruct (_ || _) eqn:E2; [|reflexivity].
  apply orb_true_iff in E2 as [E2|E2]; apply bytes_eqb_eq, (f_equal (@length _)) in E2; simpl in E2; rewrite app_length in E2; lia.
Qed.
Lemma span_space s : exists u v, s = u ++ v /\ forallb is_space u = true /\ (v = [] \/ exists c w, v = c :: w /\ is_space c = false).
Proof.
  destruct (drop_while_split is_space s) as (a & E & H). exists a, (drop_while is_space s). repeat split; auto.
  destruct (drop_while is_space s) as [|c w] eqn:Ed; [auto|]. right. exists c, w. split; [reflexivity|].
  apply (drop_while_head _ _ _ _ Ed).
Qed.

Theorem value_rx_form l : one_line l ->
  match re_match value_rx l with
  | Some g => cont_line l = true /\ strip (group g_value g) = strip l /\ group g_nl g = cont_nl l
  | None => cont_line l = false
  end.
Proof.
  intro H.
  assert (E0 : re_match value_rx l = match l with
     | c :: t => if is_space c then star_greedy is_space [c] t (value_k []) else None | [] => None end) by reflexivity.
  rewrite E0. clear E0. destruct l as [|c t]; [reflexivity|].
  destruct (is_space c) eqn:Ec.
  2:{ destruct t as [|a [|b t]]; try reflexivity. cbn [cont_line]. rewrite Ec. reflexivity. }
  assert (Ht : one_line t) by exact (one_line_tl _ _ H).
  destruct (is_crlf (last (c :: t) 0%N)) eqn:Ee.
  2:{ rewrite star_value_none; [|exact Ht|].
      - destruct t as [|a [|b t]]; try reflexivity. unfold cont_line. rewrite Ee, andb_false_r. reflexivity.
      - intro He. apply ends_nl_cons with (c := c) in He. apply is_crlf_ends in He; [congruence|discriminate]. }
  assert (Hee : ends_nl (c :: t)) by (apply is_crlf_ends; [discriminate|exact Ee]).
  destruct (span_space t) as (u & v & -> & Hu & [->|(d & w & -> & Hd)]).
  - (* white space only *)
    rewrite app_nil_r in *. destruct (last_case u) as [->|(u1 & y & ->)]; [reflexivity|].
    destruct (last_case u1) as [->|(u2 & x & ->)].
    { cbn [app]. destruct (star_greedy is_space [c] [y] (value_k [])) eqn:E; [|reflexivity].
      exfalso. revert E. cbn [star_greedy]. rewrite (value_k_eq [] [y; c] []) by (apply one_line_no_lf; intros []).
      rewrite (value_k_eq [] [c] [y]) by exact Ht. destruct (is_space y); destruct (dot y); discriminate. }
    rewrite <- app_assoc in *. cbn [app] in *.
    assert (Hy : is_crlf y = true).
    { change (c :: u2 ++ [x; y]) with ((c :: u2) ++ [x] ++ [y]) in Ee. rewrite app_assoc, last_last in Ee. exact Ee. }
    assert (Hx : dot x = true).
    { unfold dot. destruct (N.eqb_spec x 10) as [->|]; [|reflexivity]. specialize (Ht u2 [y] eq_refl). discriminate. }
    assert (Hxy : one_line [x; y]) by exact (one_line_suffix _ _ Ht).
    assert (Hy1 : one_line [y]) by exact (one_line_tl _ _ Hxy).
    rewrite forallb_app in Hu. apply andb_true_iff in Hu as [Hu2 Hxys].
    assert (Hc1 : chop [y] = Some ([], [y])).
    { unfold is_crlf in Hy. rewrite chop_here.
      destruct (bytes_eqb [y] CRLF) eqn:E1; [apply bytes_eqb_eq in E1; discriminate|].
      cbn [bytes_eqb]. rewrite !andb_true_r, Hy. reflexivity. }
    assert (Hs : star_greedy is_space [c] (u2 ++ [x; y]) (value_k []) = Some [(g_nl, [y]); (g_value, [x])]).
    { apply star_greedy_hit; [exact Hu2|]. cbn [star_greedy].
      cbn [forallb] in Hxys. apply andb_true_iff in Hxys as [Hxs Hys]. apply andb_true_iff in Hys as [Hys _]. rewrite Hxs, Hys.
      rewrite (value_k_eq [] _ []) by (apply one_line_no_lf; intros []).
      rewrite (value_k_eq [] _ [y]) by exact Hy1. cbn [chop].
      rewrite (value_k_eq [] _ [x; y]) by exact Hxy. rewrite Hx, Hc1. destruct (dot y); reflexivity. }
    rewrite Hs.
    assert (Hall : forallb is_space (c :: u2 ++ [x; y]) = true).
    { cbn [forallb]. rewrite Ec, forallb_app, Hu2, Hxys. reflexivity. }
    split; [|split].
    + apply cont_line_intro; [exact Ec|exact Ee|]. rewrite app_length. simpl. lia.
    + change (group g_value _) with [x]. rewrite (strip_all _ Hall). apply strip_all.
      cbn [forallb] in *. apply andb_true_iff in Hxys as [-> _]. reflexivity.
    + unfold cont_nl. rewrite Hall. change (group g_nl _) with [y]. f_equal.
      change (c :: u2 ++ [x; y]) with ((c :: u2) ++ [x] ++ [y]). rewrite app_assoc, last_last. reflexivity.
  - (* some text *)
    assert (Hdw : one_line (d :: w)) by exact (one_line_suffix _ _ Ht).
    assert (Hew : ends_nl w).
    { assert (He1 : ends_nl (d :: w)).
      { clear -Hee. change (c :: u ++ d :: w) with ((c :: u) ++ d :: w) in Hee. revert Hee. generalize (c :: u). intro q.
        induction q as [|x q IH]; [auto|]. intro He. apply IH. simpl in He. destruct (q ++ d :: w) eqn:E; [destruct q; discriminate|].
        exact (ends_nl_tl _ _ _ He). }
      exact (not_space_no_nl _ _ Hd He1). }
    apply chop_ends in Hew as [[v nl] Hv].
    assert (Hdot : dot d = true).
    { unfold dot. destruct (N.eqb_spec d 10) as [->|]; [discriminate|reflexivity]. }
    assert (Hs : star_greedy is_space [c] (u ++ d :: w) (value_k []) = Some [(g_nl, nl); (g_value, d :: v)]).
    { apply star_greedy_hit; [exact Hu|]. cbn [star_greedy]. rewrite Hd.
      rewrite value_k_eq by exact Hdw. rewrite Hdot, Hv. reflexivity. }
    rewrite Hs.
    assert (Hc2 : chop (d :: w) = Some (d :: v, nl)) by (apply chop_cons; assumption).
    assert (Hc3 : chop (c :: u ++ d :: w) = Some (c :: u ++ d :: v, nl)).
    { apply (chop_app (c :: u) (d :: w)); [exact Hc2|exists d, w; auto]. }
    split; [|split].
    + apply cont_line_intro; [exact Ec|exact Ee|]. pose proof (chop_nl _ _ _ Hv) as Hnl. apply chop_some in Hv as ->.
      rewrite app_length. cbn [length]. rewrite app_length. destruct Hnl as [->|[->| ->]]; simpl; lia.
    + change (group g_value _) with (d :: v). rewrite (chop_strip _ _ _ Hc2).
      symmetry. apply (strip_app_l (c :: u)). cbn [forallb]. rewrite Ec, Hu. reflexivity.
    + unfold cont_nl. rewrite Hc3. cbn [forallb]. rewrite forallb_app. cbn [forallb]. rewrite Hd.
      rewrite andb_false_r, andb_false_r. reflexivity.
Qed.

(** ** Version lines *)
Definition tag : bytes := Eval vm_compute in B "WARC/".
Definition ltag : bytes := Eval vm_compute in B "warc/".
Lemma lower_tag : lower tag = ltag. Proof. reflexivity. Qed.

Definition version_at (suf : bytes) : option (bytes * bytes * bytes * bytes) :=
  match starts_ci tag suf with
  | Some t => match chop t with
              | Some (num, nl) => Some (firstn 5 suf, num, nl, t)
              | None => None
              end
  | None => None
  end.

Definition tag_k (pre0 : bytes) (g : groups) : bytes -> bytes -> option groups :=
  fun pre' suf' =>
    rmatch (RSeq (rstr_i tag) (RGrp g_number (RStar false dot))) pre' suf' g
      (fun pre'' suf'' g' =>
         rmatch (RSeq nl_alt REos) pre'' suf''
           ((g_version, rev (firstn (length pre'' - length pre0) pre'')) :: g') kend).

(** lazy loop with a capture that also depends on an outer start *)
Lemma lazy_nl2 pre0 w suf : forall base acc g, one_line suf -> base = rev w ++ pre0 ->
  star_lazy dot (rev acc ++ base) suf
    (fun pre' suf' => rmatch (RSeq nl_alt REos) pre' suf'
        ((g_version, rev (firstn (length pre' - length pre0) pre')) ::
         (g_number, rev (firstn (length pre' - length base) pre')) :: g) kend) =
  match chop suf with
  | Some (v, nl) => Some ((g_nl, nl) :: (g_version, w ++ acc ++ v) :: (g_number, acc ++ v) :: g)
  | None => None
  end.
Proof.
  induction suf as [|c t IH]; intros base acc g H Eb; cbn [star_lazy]; rewrite nl_eos, cap_rev.
  - reflexivity.
  - assert (Ew : rev (firstn (length (rev acc ++ base) - length pre0) (rev acc ++ base)) = w ++ acc).
    { rewrite Eb, app_assoc, <- rev_app_distr. apply cap_rev. }
    rewrite Ew, chop_here. destruct (bytes_eqb (c :: t) CRLF); [rewrite app_nil_r; reflexivity|].
    destruct (bytes_eqb (c :: t) [13%N] || bytes_eqb (c :: t) [10%N]) eqn:E; [rewrite app_nil_r; reflexivity|].
    unfold dot at 1. destruct (N.eqb_spec c 10) as [->|Hc].
    + exfalso. apply one_line_head_lf in H. subst t. rewrite orb_true_r in E. discriminate.
    + cbn [negb]. specialize (IH base (acc ++ [c]) g (one_line_tl _ _ H) Eb).
      rewrite rev_app_distr in IH. cbn [rev app] in IH. rewrite IH.
      destruct (chop t) as [[v nl]|]; [|reflexivity]. rewrite <- app_assoc. reflexivity.
Qed.

Lemma starts_ci_firstn p s t : starts_ci p s = Some t -> s = firstn (length p) s ++ t.
Proof. intro H. apply starts_ci_some in H as (q & -> & E).
  assert (L : length q = length p) by (apply (f_equal (@length _)) in E; rewrite !lower_length in E; exact E).
  rewrite <- L, firstn_app, firstn_all, Nat.sub_diag. simpl. rewrite app_nil_r. reflexivity. Qed.

Lemma tag_k_eq pre0 ws g suf : one_line suf ->
  tag_k pre0 g (rev ws ++ pre0) suf =
  match version_at suf with
  | Some (w, num, nl, _) => Some ((g_nl, nl) :: (g_version, ws ++ w ++ num) :: (g_number, num) :: g)
  | None => None
  end.
Proof.
  intro H. unfold tag_k, version_at.
  change (rmatch (RSeq (rstr_i tag) (RGrp g_number (RStar false dot))) ?p suf g ?k)
   with (rmatch (rstr_i tag) p suf g (fun pre' suf' g' => rmatch (RGrp g_number (RStar false dot)) pre' suf' g' k)).
  rewrite rmatch_rstr_i. destruct (starts_ci tag suf) as [t|] eqn:E; [|reflexivity].
  pose proof (starts_ci_firstn _ _ _ E) as Es. change (length tag) with 5 in *.
  assert (Ht : one_line t) by (rewrite Es in H; exact (one_line_suffix _ _ H)).
  etransitivity.
  { refine (lazy_nl2 pre0 (ws ++ firstn 5 suf) t (rev (firstn 5 suf) ++ rev ws ++ pre0) [] g Ht _).
    rewrite rev_app_distr, <- app_assoc. reflexivity. }
  destruct (chop t) as [[v nl]|]; [|reflexivity]. cbn [app]. rewrite <- app_assoc. reflexivity.
Qed.

Lemma version_at_space c s : is_space c = true -> version_at (c :: s) = None.
Proof. intro H. unfold version_at. destruct (starts_ci tag (c :: s)) as [t|] eqn:E; [|reflexivity].
  exfalso. unfold tag in E. cbn [starts_ci] in E.
  destruct (N.eqb_spec (to_lower 87) (to_lower c)) as [E1|E1]; [|discriminate].
  rewrite <- is_space_lower, <- E1 in H. discriminate. Qed.

Definition ver_k (pre0 : bytes) (g : groups) : bytes -> bytes -> option groups :=
  fun pre suf => star_greedy is_space pre suf (tag_k pre0 g).
Lemma ver_star pre0 g s : forall ws, one_line s ->
  star_greedy is_space (rev ws ++ pre0) s (tag_k pre0 g) =
  let u := lstrip s in
  match version_at u with
  | Some (w, num, nl, _) =>
      Some ((g_nl, nl) :: (g_version, ws ++ firstn (length s - length u) s ++ w ++ num) :: (g_number, num) :: g)
  | None => None
  end.
Proof.
  induction s as [|c t IH]; intros ws H; cbn [star_greedy].
  - rewrite tag_k_eq by exact H. reflexivity.
  - cbn zeta. unfold lstrip. cbn [drop_while]. destruct (is_space c) eqn:Ec.
    + specialize (IH (ws ++ [c]) (one_line_tl _ _ H)). rewrite rev_app_distr in IH. cbn [rev app] in IH.
      rewrite IH. cbn zeta. fold (lstrip t).
      destruct (version_at (lstrip t)) as [[[[w num] nl] t']|] eqn:E.
      * assert (L : length (c :: t) - length (lstrip t) = S (length t - length (lstrip t))).
        { pose proof (drop_while_length is_space t) as Hl. fold (lstrip t) in Hl. cbn [length]. lia. }
        rewrite L. cbn [firstn app]. rewrite <- app_assoc. reflexivity.
      * rewrite tag_k_eq by exact H. rewrite version_at_space by exact Ec. reflexivity.
    + rewrite tag_k_eq by exact H. rewrite Nat.sub_diag. reflexivity.
Qed.

Fixpoint version_parts (s : bytes) : option (bytes * bytes * bytes * bytes) :=
  (* prefix, version, number, line end *)
  match version_at (lstrip s) with
  | Some (w, num, nl, _) => Some ([], firstn (length s - length (lstrip s)) s ++ w ++ num, num, nl)
  | None => match s with
            | [] => None
            | c :: t => if dot c then
                          match version_parts t with
                          | Some (p, v, num, nl) => Some (c :: p, v, num, nl)
                          | None => None
                          end
                        else None
            end
  end.
Lemma version_lazy s : forall acc, one_line s ->
  star_lazy dot (rev acc ++ []) s
    (fun pre' suf' => ver_k pre' [(g_prefix, rev (firstn (length pre' - length (@nil N)) pre'))] pre' suf') =
  match version_parts s with
  | Some (p, v, num, nl) => Some [(g_nl, nl); (g_version, v); (g_number, num); (g_prefix, acc ++ p)]
  | None => None
  end.
Proof.
  induction s as [|c t IH]; intros acc H.
  - cbn [star_lazy version_parts]. unfold ver_k.
    rewrite cap_rev. pose proof (ver_star (rev acc ++ []) [(g_prefix, acc)] [] [] H) as E.
    change (rev [] ++ rev acc ++ []) with (rev acc ++ []) in E. rewrite E. reflexivity.
  - cbn [star_lazy]. unfold ver_k at 1. rewrite cap_rev.
    pose proof (ver_star (rev acc ++ []) [(g_prefix, acc)] (c :: t) [] H) as E.
    change (rev [] ++ rev acc ++ []) with (rev acc ++ []) in E. rewrite E. clear E.
    cbn zeta. cbn [version_parts].
    destruct (version_at (lstrip (c :: t))) as [[[[w num] nl] t']|].
    + rewrite app_nil_r. reflexivity.
    + destruct (dot c); [|reflexivity].
      specialize (IH (acc ++ [c]) (one_line_tl _ _ H)). rewrite rev_app_distr in IH. cbn [rev app] in IH.
      rewrite IH. destruct (version_parts t) as [[[[p v] num] nl]|]; [|reflexivity].
      rewrite <- app_assoc. reflexivity.
Qed.
Theorem version_rx_form l : one_line l ->
  re_match version_rx l =
  match version_parts l with
  | Some (p, v, num, nl) => Some [(g_nl, nl); (g_version, v); (g_number, num); (g_prefix, p)]
  | None => None
  end.
Proof. intro H. exact (version_lazy l [] H). Qed.

Lemma starts_ci_lower p s t : starts_ci p s = Some t -> startswith (lower p) (lower s) = true.
Proof. intro H. apply starts_ci_some in H as (q & -> & E). rewrite lower_app, E. apply startswith_app. Qed.
Lemma starts_ci_hit p q t : lower q = lower p -> starts_ci p (q ++ t) = Some t.
Proof. intro H. apply starts_ci_some. exists q. auto. Qed.

Lemma contains_suffix sub a s : contains sub s = true -> contains sub (a ++ s) = true.
Proof. intro H. apply contains_iff in H as (x & y & ->). apply contains_iff. exists (a ++ x), y. rewrite <- app_assoc. reflexivity. Qed.
Lemma contains_start sub s : startswith sub s = true -> contains sub s = true.
Proof. intro H. apply startswith_iff in H as [t ->]. apply contains_iff. exists [], t. reflexivity. Qed.
Lemma version_at_contains s p : version_at s = Some p -> contains ltag (lower s) = true.
Proof. unfold version_at. destruct (starts_ci tag s) as [t|] eqn:E; [|discriminate].
  intros _. apply contains_start. apply (starts_ci_lower _ _ _ E). Qed.
Lemma lstrip_suffix_contains s : contains ltag (lower (lstrip s)) = true -> contains ltag (lower s) = true.
Proof. intro H. destruct (lstrip_split s) as (a & E & _). rewrite E, lower_app. apply contains_suffix. exact H. Qed.
Lemma version_parts_absent l : contains ltag (lower l) = false -> version_parts l = None.
Proof.
  induction l as [|c t IH]; intro H; cbn [version_parts].
  - destruct (version_at (lstrip [])) as [[[[w num] nl] t']|] eqn:E; [discriminate|reflexivity].
  - destruct (version_at (lstrip (c :: t))) as [[[[w num] nl] t']|] eqn:E.
    + exfalso. apply version_at_contains, lstrip_suffix_contains in E. congruence.
    + destruct (dot c); [|reflexivity]. rewrite IH; [reflexivity|].
      destruct (contains ltag (lower t)) eqn:Et; [|reflexivity].
      apply (contains_suffix _ (lower [c])) in Et. rewrite <- lower_app in Et. simpl app in Et. congruence.
Qed.
Lemma ends_nl_app a s : ends_nl s -> ends_nl (a ++ s).
Proof. intros (t & c & -> & H). exists (a ++ t), c. rewrite app_assoc. auto. Qed.
Lemma version_at_ends s p : version_at s = Some p -> ends_nl s.
Proof. unfold version_at. destruct (starts_ci tag s) as [t|] eqn:E; [|discriminate].
  destruct (chop t) as [[num nl]|] eqn:Ec; [|discriminate]. intros _.
  rewrite (starts_ci_firstn _ _ _ E). apply ends_nl_app. apply chop_ends. eauto. Qed.
Lemma version_parts_ends l p : version_parts l = Some p -> ends_nl l.
Proof.
  revert p; induction l as [|c t IH]; intro p; cbn [version_parts].
  - destruct (version_at (lstrip [])) as [[[[w num] nl] t']|] eqn:E; discriminate.
  - destruct (version_at (lstrip (c :: t))) as [[[[w num] nl] t']|] eqn:E.
    + intros _. apply version_at_ends in E. destruct (lstrip_split (c :: t)) as (a & -> & _). apply ends_nl_app. exact E.
    + destruct (dot c); [|discriminate]. destruct (version_parts t) as [q|]; [|discriminate].
      intros _. apply ends_nl_cons. apply (IH q). reflexivity.
Qed.

Lemma version_at_hit w rest num nl : lower w = ltag -> chop rest = Some (num, nl) ->
  version_at (w ++ rest) = Some (w, num, nl, rest).
Proof.
  intros Hw Hr. unfold version_at. rewrite (starts_ci_hit tag w rest Hw), Hr.
  assert (L : length w = 5) by (apply (f_equal (@length _)) in Hw; rewrite lower_length in Hw; exact Hw).
  rewrite firstn_app, <- L, firstn_all, Nat.sub_diag. simpl. rewrite app_nil_r. reflexivity.
Qed.

(** an occurrence of the tag cannot start inside a prefix that has none *)
Lemma tag_no_overlap x s : x <> [] -> contains ltag (lower x) = false ->
  startswith ltag (lower x ++ ltag ++ s) = false.
Proof.
  intros Hx Hc. destruct (startswith ltag (lower x ++ ltag ++ s)) eqn:E; [|reflexivity]. exfalso.
  apply startswith_iff in E as [t E].
  destruct (Nat.le_gt_cases 5 (length (lower x))) as [L|L].
  - assert (Es : startswith ltag (lower x) = true).
    { apply startswith_iff. exists (skipn 5 (lower x)).
      apply (f_equal (firstn 5)) in E. rewrite firstn_app in E.
      replace (5 - length (lower x)) with 0 in E by lia. rewrite app_nil_r in E.
      change (firstn 5 (ltag ++ t)) with ltag in E. rewrite <- E. symmetry. apply firstn_skipn. }
    apply contains_start in Es. congruence.
  - destruct (lower x) as [|a1 [|a2 [|a3 [|a4 [|a5 y]]]]] eqn:Ex; simpl in L; try lia.
    + destruct x; [contradiction|discriminate].
    + discriminate E.
    + discriminate E.
    + discriminate E.
    + discriminate E.
Qed.

Lemma version_parts_hit pfx ws w rest num nl :
  lower w = ltag -> chop rest = Some (num, nl) -> forallb is_space ws = true ->
  contains ltag (lower pfx) = false -> ~ In 10%N pfx ->
  (forall t c, pfx = t ++ [c] -> is_space c = false) ->
  version_parts (pfx ++ ws ++ w ++ rest) = Some (pfx, ws ++ w ++ num, num, nl).
Proof.
  intros Hw Hr Hws. induction pfx as [|c p IH]; intros Hc Hlf Hl.
  - cbn [app].
    assert (Ewn : forall q, lstrip (w ++ q) = w ++ q).
    { intro q. apply drop_while_none. intros x t E. destruct w as [|w0 w']; [discriminate|].
      injection E as <- _. unfold ltag in Hw. cbn [lower map] in Hw. injection Hw as Hw _.
      rewrite <- is_space_lower, Hw. reflexivity. }
    assert (El : lstrip (ws ++ w ++ rest) = w ++ rest).
    { unfold lstrip. rewrite drop_while_app_all by exact Hws. apply Ewn. }
    assert (Ev : version_at (lstrip (ws ++ w ++ rest)) = Some (w, num, nl, rest)).
    { rewrite El. apply version_at_hit; assumption. }
    assert (Ef : firstn (length (ws ++ w ++ rest) - length (w ++ rest)) (ws ++ w ++ rest) = ws).
    { rewrite app_length. replace (length ws + length (w ++ rest) - length (w ++ rest)) with (length ws) by lia.
      rewrite firstn_app, firstn_all, Nat.sub_diag. simpl. apply app_nil_r. }
    destruct (ws ++ w ++ rest) as [|x t] eqn:E; cbn [version_parts]; rewrite Ev, El, Ef; reflexivity.
  - cbn [app version_parts].
    assert (En : version_at (lstrip (c :: p ++ ws ++ w ++ rest)) = None).
    { destruct (version_at (lstrip (c :: p ++ ws ++ w ++ rest))) as [q|] eqn:E; [|reflexivity]. exfalso.
      change (c :: p ++ ws ++ w ++ rest) with ((c :: p) ++ ws ++ w ++ rest) in E.
      destruct (span_space (c :: p)) as (u & v & Euv & Hu & Hv).
      destruct Hv as [->|(d & y & -> & Hd)].
      - rewrite app_nil_r in Euv. destruct (last_case (c :: p)) as [?|(t & x & Et)]; [discriminate|].
        assert (Hx := Hl t x Et). rewrite Euv in Et. rewrite Et, forallb_app in Hu. cbn [forallb] in Hu.
        rewrite Hx in Hu. rewrite andb_false_r in Hu. discriminate.
      - rewrite Euv in E. rewrite <- app_assoc in E. unfold lstrip in E. rewrite drop_while_app_all in E by exact Hu.
        rewrite drop_while_none in E by (intros x t Ex; injection Ex as <- _; exact Hd).
        unfold version_at in E. destruct (starts_ci tag ((d :: y) ++ ws ++ w ++ rest)) as [t|] eqn:Es; [|discriminate].
        apply starts_ci_lower in Es. rewrite lower_tag in Es.
        assert (Hcy : contains ltag (lower (d :: y)) = false).
        { destruct (contains ltag (lower (d :: y))) eqn:Ec; [|reflexivity].
          apply (contains_suffix _ (lower u)) in Ec. rewrite <- lower_app, <- Euv in Ec. congruence. }
        destruct ws as [|s0 ws'].
        + cbn [app] in Es. rewrite app_comm_cons, !lower_app, Hw in Es.
          rewrite tag_no_overlap in Es; [discriminate|discriminate|exact Hcy].
        + (* white space after the prefix: the tag would have to lie inside the prefix *)
          cbn [forallb] in Hws. apply andb_true_iff in Hws as [Hs0 _].
          rewrite lower_app in Es. apply startswith_iff in Es as [q' Es].
          remember (lower (d :: y)) as x eqn:Ex.
          destruct (Nat.le_gt_cases 5 (length x)) as [L|L].
          * assert (Est : startswith ltag x = true).
            { apply startswith_iff. exists (skipn 5 x). apply (f_equal (firstn 5)) in Es. rewrite firstn_app in Es.
              replace (5 - length x) with 0 in Es by lia. rewrite app_nil_r in Es.
              change (firstn 5 (ltag ++ q')) with ltag in Es. rewrite <- Es. symmetry. apply firstn_skipn. }
            apply contains_start in Est. congruence.
          * rewrite <- is_space_lower in Hs0. cbn [app lower map] in Es.
            destruct x as [|a1 [|a2 [|a3 [|a4 [|a5 y']]]]]; simpl in L; try lia;
              cbn [app] in Es; unfold ltag in Es; cbn [app] in Es; injection Es; intros;
              try discriminate;
              match goal with H : to_lower s0 = _ |- _ => rewrite H in Hs0; discriminate end. }
    rewrite En. assert (Hd : dot c = true).
    { unfold dot. destruct (N.eqb_spec c 10) as [->|]; [|reflexivity]. exfalso. apply Hlf. left. reflexivity. }
    rewrite Hd, IH; [reflexivity| | |].
    + destruct (contains ltag (lower p)) eqn:Ec; [|reflexivity].
      apply (contains_suffix _ (lower [c])) in Ec. rewrite <- lower_app in Ec. simpl app in Ec. congruence.
    + intro Hi. apply Hlf. right. exact Hi.
    + intros t x Et. apply (Hl (c :: t) x). rewrite Et. reflexivity.
Qed.
