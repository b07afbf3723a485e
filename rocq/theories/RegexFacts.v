(** Generic lemmas about the regex matcher and closed forms of the line
    endings used by the WARC expressions. *)
From Verif Require Export PyBytesFacts Warc.

Arguments N.eqb : simpl never.

Lemma cap_rev (x pre : bytes) :
  rev (firstn (length (rev x ++ pre) - length pre) (rev x ++ pre)) = x.
Proof.
  rewrite app_length. replace (length (rev x) + length pre - length pre) with (length (rev x)) by lia.
  rewrite firstn_app, firstn_all, Nat.sub_diag. simpl. rewrite app_nil_r. apply rev_involutive.
Qed.
Lemma cap_nil (pre : bytes) : rev (firstn (length pre - length pre) pre) = [].
Proof. rewrite Nat.sub_diag. reflexivity. Qed.
Lemma cap_1 a (pre : bytes) : rev (firstn (length (a :: pre) - length pre) (a :: pre)) = [a].
Proof. apply (cap_rev [a] pre). Qed.
Lemma cap_2 a b (pre : bytes) : rev (firstn (length (b :: a :: pre) - length pre) (b :: a :: pre)) = [a; b].
Proof. apply (cap_rev [a; b] pre). Qed.

(** At most one LF, and only at the end. *)
Definition one_line (s : bytes) : Prop := forall a b, s = a ++ 10%N :: b -> b = [].
Lemma one_line_tl c s : one_line (c :: s) -> one_line s.
Proof. intros H a b E. apply (H (c :: a) b). rewrite E. reflexivity. Qed.
Lemma one_line_suffix a s : one_line (a ++ s) -> one_line s.
Proof. induction a as [|c a IH]; simpl; [auto|]. intro H. apply IH. exact (one_line_tl _ _ H). Qed.
Lemma one_line_no_lf s : ~ In 10%N s -> one_line s.
Proof. intros H a b E. exfalso. apply H. rewrite E. apply in_or_app. right. left. reflexivity. Qed.
Lemma one_line_lf s : ~ In 10%N s -> one_line (s ++ [10%N]).
Proof.
  intros H a b E. revert s H E. induction a as [|c a IH]; intros s H E.
  - destruct s as [|x s]; simpl in E; inversion E; [reflexivity|]. subst. exfalso. apply H. left. reflexivity.
  - destruct s as [|x s]; simpl in E; inversion E; subst.
    + destruct a; discriminate.
    + apply (IH s); [intro; apply H; right; assumption|assumption].
Qed.
Lemma one_line_head_lf s : one_line (10%N :: s) -> s = [].
Proof. intro H. apply (H [] s). reflexivity. Qed.

(** Split off the final line end: CR LF, CR or LF. *)
Fixpoint chop (s : bytes) : option (bytes * bytes) :=
  match s with
  | [] => None
  | c :: t =>
      if bytes_eqb s CRLF then Some ([], CRLF)
      else if bytes_eqb s [13%N] || bytes_eqb s [10%N] then Some ([], s)
      else match chop t with
           | Some (v, nl) => Some (c :: v, nl)
           | None => None
           end
  end.

Definition kend : bytes -> bytes -> groups -> option groups := fun _ _ g => Some g.

Lemma nl_eos pre suf g :
  rmatch (RSeq nl_alt REos) pre suf g kend =
  if bytes_eqb suf CRLF then Some ((g_nl, CRLF) :: g)
  else if bytes_eqb suf [13%N] || bytes_eqb suf [10%N] then Some ((g_nl, suf) :: g)
  else None.
Proof.
  unfold nl_alt, lit. cbn [rmatch].
  destruct suf as [|a [|b [|c s]]]; cbn [bytes_eqb CRLF andb orb].
  - reflexivity.
  - rewrite ?andb_true_r, ?andb_false_r. rewrite (N.eqb_sym a 13), (N.eqb_sym a 10).
    destruct (N.eqb_spec 13 a) as [E|E].
    + subst a. rewrite cap_1. reflexivity.
    + destruct (N.eqb_spec 10 a) as [E2|E2]; [|reflexivity].
      subst a. rewrite cap_1. reflexivity.
  - rewrite ?andb_true_r, ?andb_false_r. rewrite (N.eqb_sym a 13), (N.eqb_sym b 10).
    destruct (N.eqb_spec 13 a) as [E|E].
    + destruct (N.eqb_spec 10 b) as [E2|E2]; cbn [andb].
      * subst. rewrite cap_2. reflexivity.
      * destruct (10 =? a)%N; reflexivity.
    + cbn [andb]. destruct (10 =? a)%N; reflexivity.
  - rewrite ?andb_false_r. cbn [orb]. destruct (13 =? a)%N; destruct (10 =? b)%N; destruct (10 =? a)%N; reflexivity.
Qed.

Lemma chop_here c t :
  chop (c :: t) =
  if bytes_eqb (c :: t) CRLF then Some ([], CRLF)
  else if bytes_eqb (c :: t) [13%N] || bytes_eqb (c :: t) [10%N] then Some ([], c :: t)
  else match chop t with
       | Some (v, nl) => Some (c :: v, nl)
       | None => None
       end.
Proof. reflexivity. Qed.

(** (?P<n>.*?)(?P<nl>\r\n|\r|\n)\Z *)
Lemma lazy_nl n suf : forall pre0 acc g, one_line suf ->
  star_lazy dot (rev acc ++ pre0) suf
    (fun pre' suf' => rmatch (RSeq nl_alt REos) pre' suf'
        ((n, rev (firstn (length pre' - length pre0) pre')) :: g) kend) =
  match chop suf with
  | Some (v, nl) => Some ((g_nl, nl) :: (n, acc ++ v) :: g)
  | None => None
  end.
Proof.
  induction suf as [|c t IH]; intros pre0 acc g H; cbn [star_lazy]; rewrite nl_eos, cap_rev.
  - reflexivity.
  - rewrite chop_here. destruct (bytes_eqb (c :: t) CRLF); [rewrite app_nil_r; reflexivity|].
    destruct (bytes_eqb (c :: t) [13%N] || bytes_eqb (c :: t) [10%N]) eqn:E; [rewrite app_nil_r; reflexivity|].
    unfold dot at 1. destruct (N.eqb_spec c 10) as [->|Hc].
    + exfalso. apply one_line_head_lf in H. subst t. rewrite orb_true_r in E. discriminate.
    + cbn [negb]. specialize (IH pre0 (acc ++ [c]) g (one_line_tl _ _ H)).
      rewrite rev_app_distr in IH. cbn [rev app] in IH. rewrite IH.
      destruct (chop t) as [[v nl]|]; [|reflexivity]. rewrite <- app_assoc. reflexivity.
Qed.

Lemma grp_lazy_nl n pre suf g : one_line suf ->
  rmatch (RSeq (RGrp n (RStar false dot)) (RSeq nl_alt REos)) pre suf g kend =
  match chop suf with
  | Some (v, nl) => Some ((g_nl, nl) :: (n, v) :: g)
  | None => None
  end.
Proof. intro H. apply (lazy_nl n suf pre [] g H). Qed.

(** ** chop *)
Lemma chop_some s v nl : chop s = Some (v, nl) -> s = v ++ nl.
Proof.
  revert v nl; induction s as [|c t IH]; intros v nl; [discriminate|]. rewrite chop_here.
  destruct (bytes_eqb (c :: t) CRLF) eqn:E1.
  { intro H. injection H as <- <-. apply bytes_eqb_eq in E1. exact E1. }
  destruct (_ || _) eqn:E2.
  { intro H. injection H as <- <-. reflexivity. }
  destruct (chop t) as [[v' nl']|]; [|discriminate].
  intro H. injection H as <- <-. simpl. f_equal. apply IH. reflexivity.
Qed.
Lemma chop_nl s v nl : chop s = Some (v, nl) -> nl = CRLF \/ nl = [13%N] \/ nl = [10%N].
Proof.
  revert v nl; induction s as [|c t IH]; intros v nl; [discriminate|]. rewrite chop_here.
  destruct (bytes_eqb (c :: t) CRLF) eqn:E1.
  { intro H. injection H as <- <-. left. reflexivity. }
  destruct (_ || _) eqn:E2.
  { intro H. injection H as <- <-. apply orb_true_iff in E2 as [E|E]; apply bytes_eqb_eq in E; rewrite E; auto. }
  destruct (chop t) as [[v' nl']|]; [|discriminate].
  intro H. injection H as <- <-. apply (IH v'). reflexivity.
Qed.

Definition ends_nl (s : bytes) : Prop := exists t c, s = t ++ [c] /\ (c = 13%N \/ c = 10%N).
Lemma ends_nl_cons c s : ends_nl s -> ends_nl (c :: s).
Proof. intros (t & d & -> & H). exists (c :: t), d. auto. Qed.
Lemma ends_nl_tl c d s : ends_nl (c :: d :: s) -> ends_nl (d :: s).
Proof. intros (t & x & E & H). destruct t as [|y t]; [discriminate|]. injection E as -> E. exists t, x. auto. Qed.

Lemma chop_crlf v : chop (v ++ CRLF) = Some (v, CRLF).
Proof.
  induction v as [|c v IH]; [reflexivity|].
  change ((c :: v) ++ CRLF) with (c :: (v ++ CRLF)). rewrite chop_here, IH.
  destruct (bytes_eqb _ CRLF) eqn:E1.
  { apply bytes_eqb_eq, (f_equal (@length _)) in E1. simpl in E1. rewrite app_length in E1. simpl in E1. lia. }
  destruct (_ || _) eqn:E2; [|reflexivity].
  apply orb_true_iff in E2 as [E|E]; apply bytes_eqb_eq, (f_equal (@length _)) in E;
    simpl in E; rewrite app_length in E; simpl in E; lia.
Qed.
Lemma chop_lf v : (forall t, v <> t ++ [13%N]) -> chop (v ++ [10%N]) = Some (v, [10%N]).
Proof.
  induction v as [|c v IH]; intro H; [reflexivity|].
  change ((c :: v) ++ [10%N]) with (c :: (v ++ [10%N])). rewrite chop_here, IH.
  - destruct (bytes_eqb _ CRLF) eqn:E1.
    { apply bytes_eqb_eq in E1. injection E1 as -> E1. destruct v as [|d v]; [|destruct v; discriminate].
      exfalso. apply (H []). reflexivity. }
    destruct (_ || _) eqn:E2; [|reflexivity].
    apply orb_true_iff in E2 as [E|E]; apply bytes_eqb_eq, (f_equal (@length _)) in E;
    simpl in E; rewrite app_length in E; simpl in E; lia.
  - intros t E. apply (H (c :: t)). rewrite E. reflexivity.
Qed.
Lemma chop_cr v : chop (v ++ [13%N]) = Some (v, [13%N]).
Proof.
  induction v as [|c v IH]; [reflexivity|].
  change ((c :: v) ++ [13%N]) with (c :: (v ++ [13%N])). rewrite chop_here, IH.
  destruct (bytes_eqb _ CRLF) eqn:E1.
  { apply bytes_eqb_eq in E1. injection E1 as -> E1. destruct v as [|d v]; [discriminate|]. destruct v; discriminate. }
  destruct (_ || _) eqn:E2; [|reflexivity].
  apply orb_true_iff in E2 as [E|E]; apply bytes_eqb_eq, (f_equal (@length _)) in E;
    simpl in E; rewrite app_length in E; simpl in E; lia.
Qed.
Lemma last_case (s : bytes) : s = [] \/ exists t c, s = t ++ [c].
Proof. induction s as [|c s IH] using rev_ind; [auto|]. right. exists s, c. reflexivity. Qed.

Lemma chop_ends s : (exists p, chop s = Some p) <-> ends_nl s.
Proof.
  split.
  - intros [[v nl] H]. pose proof (chop_some _ _ _ H) as ->. apply chop_nl in H as [->|[->| ->]].
    + exists (v ++ [13%N]), 10%N. rewrite <- app_assoc. auto.
    + exists v, 13%N. auto.
    + exists v, 10%N. auto.
  - intros (t & c & -> & [->| ->]).
    + exists (t, [13%N]). apply chop_cr.
    + destruct (last_case t) as [->|(t' & d & ->)]; [exists ([], [10%N]); reflexivity|].
      destruct (N.eq_dec d 13) as [->|Hd].
      * exists (t', CRLF). rewrite <- app_assoc. apply chop_crlf.
      * exists (t' ++ [d], [10%N]). apply chop_lf. intros u E. apply app_inj_tail in E as [_ E]. contradiction.
Qed.
Lemma chop_none s : chop s = None <-> ~ ends_nl s.
Proof.
  split.
  - intros H He. apply chop_ends in He as [p Hp]. congruence.
  - intro H. destruct (chop s) as [p|] eqn:E; [|reflexivity]. exfalso. apply H. apply chop_ends. exists p. exact E.
Qed.
Lemma is_space_nl nl : nl = CRLF \/ nl = [13%N] \/ nl = [10%N] -> forallb is_space nl = true.
Proof. intros [->|[->| ->]]; reflexivity. Qed.

(** strip ignores white space added at either end *)
Lemma strip_app_r s b : forallb is_space b = true -> strip (s ++ b) = strip s.
Proof.
  intro Hb. destruct (strip_split s) as (x & y & E & Hx & Hy). rewrite E at 1.
  rewrite <- !app_assoc. apply strip_pad; [exact Hx| |apply strip_is_trimmed].
  rewrite forallb_app, Hy, Hb. reflexivity.
Qed.
Lemma strip_app_l a s : forallb is_space a = true -> strip (a ++ s) = strip s.
Proof. intro Ha. unfold strip, lstrip. rewrite drop_while_app_all by exact Ha. reflexivity. Qed.
Lemma strip_cons c s : is_space c = true -> strip (c :: s) = strip s.
Proof. intro H. apply (strip_app_l [c]). simpl. rewrite H. reflexivity. Qed.
Lemma strip_all s : forallb is_space s = true -> strip s = [].
Proof. intro H. unfold strip, lstrip. rewrite drop_while_all by exact H. reflexivity. Qed.
Lemma chop_strip s v nl : chop s = Some (v, nl) -> strip v = strip s.
Proof. intro H. pose proof (chop_some _ _ _ H) as E. pose proof (is_space_nl _ (chop_nl _ _ _ H)) as Hs.
  rewrite E. symmetry. apply strip_app_r. exact Hs. Qed.

(** ** literals *)
Lemma rmatch_lit {A} c pre suf g (k : bytes -> bytes -> groups -> option A) :
  rmatch (lit c) pre suf g k =
  match suf with x :: t => if N.eqb c x then k (x :: pre) t g else None | [] => None end.
Proof. reflexivity. Qed.

(** case-insensitive prefix *)
Fixpoint starts_ci (p s : bytes) : option bytes :=
  match p, s with
  | [], _ => Some s
  | x :: p', y :: s' => if N.eqb (to_lower x) (to_lower y) then starts_ci p' s' else None
  | _ :: _, [] => None
  end.
Lemma rmatch_rstr_i {A} p : forall pre suf g (k : bytes -> bytes -> groups -> option A),
  rmatch (rstr_i p) pre suf g k =
  match starts_ci p suf with
  | Some t => k (rev (firstn (length p) suf) ++ pre) t g
  | None => None
  end.
Proof.
  induction p as [|c p IH]; intros pre suf g k; [reflexivity|].
  cbn [rstr_i rmatch lit_i]. destruct suf as [|x t]; [reflexivity|].
  cbn [starts_ci length firstn]. destruct (to_lower c =? to_lower x)%N; [|reflexivity].
  rewrite IH. destruct (starts_ci p t) as [u|]; [|reflexivity]. cbn [rev]. rewrite <- app_assoc. reflexivity.
Qed.
Lemma starts_ci_some p s t : starts_ci p s = Some t <-> exists q, s = q ++ t /\ lower q = lower p.
Proof.
  revert s; induction p as [|c p IH]; intro s; cbn [starts_ci].
  - split; [intro H; injection H as ->; exists []; auto|].
    intros (q & -> & E). destruct q; [reflexivity|discriminate].
  - destruct s as [|x s].
    + split; [discriminate|]. intros (q & E & H). destruct q; [discriminate|discriminate].
    + destruct (N.eqb_spec (to_lower c) (to_lower x)) as [E|E].
      * rewrite IH. split.
        -- intros (q & -> & H). exists (x :: q). simpl. split; [reflexivity|]. f_equal; [congruence|exact H].
        -- intros (q & E1 & H). destruct q as [|y q]; [discriminate|]. simpl in E1, H. inversion E1; subst. injection H as _ H.
           exists q. auto.
      * split; [discriminate|]. intros (q & E1 & H). destruct q as [|y q]; [discriminate|].
        simpl in E1, H. inversion E1; subst. injection H as H _. congruence.
Qed.

(** ^name$ with IGNORECASE: equality up to case, or with one trailing LF *)
Lemma name_rx_test p s : re_test (RSeq RBol (RSeq (rstr_i p) REol)) s =
  bytes_eqb (lower s) (lower p) || bytes_eqb (lower s) (lower p ++ [10%N]).
Proof.
  unfold re_test, re_match. cbn [rmatch]. rewrite rmatch_rstr_i.
  destruct (starts_ci p s) as [t|] eqn:E.
  - apply starts_ci_some in E as (q & -> & Hq). rewrite lower_app, Hq.
    destruct t as [|a [|b t]].
    + simpl. rewrite app_nil_r, bytes_eqb_refl. reflexivity.
    + assert (E1 : bytes_eqb (lower p ++ lower [a]) (lower p) = false).
      { apply bytes_eqb_neq. intro E. apply (f_equal (@length _)) in E. rewrite app_length in E. simpl in E. lia. }
      rewrite E1. cbn [orb].
      destruct (N.eqb_spec a 10) as [->|Ha].
      * change (lower [10%N]) with [10%N]. rewrite bytes_eqb_refl. reflexivity.
      * assert (E2 : bytes_eqb (lower p ++ lower [a]) (lower p ++ [10%N]) = false).
        { apply bytes_eqb_neq. intro E. apply app_inv_head in E. injection E as E. apply Ha.
          apply N.eqb_eq. rewrite <- (to_lower_neq a 10) by reflexivity. apply N.eqb_eq. exact E. }
        rewrite E2. destruct a as [|q0]; [reflexivity|]. do 4 (destruct q0 as [q0|q0|]; try reflexivity). congruence.
    + assert (E1 : bytes_eqb (lower p ++ lower (a :: b :: t)) (lower p) = false).
      { apply bytes_eqb_neq. intro E. apply (f_equal (@length _)) in E. rewrite app_length in E. simpl in E. lia. }
      assert (E2 : bytes_eqb (lower p ++ lower (a :: b :: t)) (lower p ++ [10%N]) = false).
      { apply bytes_eqb_neq. intro E. apply app_inv_head in E. discriminate. }
      rewrite E1, E2. destruct a as [|q0]; [reflexivity|]. do 4 (destruct q0 as [q0|q0|]; try reflexivity).
  - symmetry. apply orb_false_iff. split; apply bytes_eqb_neq; intro H.
    + assert (starts_ci p s = Some []) by (apply starts_ci_some; exists s; rewrite app_nil_r; auto). congruence.
    + apply (f_equal (@rev _)) in H. rewrite rev_app_distr in H. simpl in H.
      destruct (last_case s) as [->|(u & c & ->)]; [discriminate|].
      rewrite lower_app, rev_app_distr in H. simpl in H. injection H as H1 H2.
      assert (starts_ci p (u ++ [c]) = Some [c]); [|congruence].
      apply starts_ci_some. exists u. split; [reflexivity|].
      apply (f_equal (@rev _)) in H2. rewrite !rev_involutive in H2. exact H2.
Qed.
