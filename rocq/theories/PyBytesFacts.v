(** Lemmas about the Python primitives. *)
From Verif Require Export PyBytes.
From Coq Require Export Lia ZifyBool ZifyNat ZifyN.
Ltac Zify.zify_post_hook ::= Z.div_mod_to_equations.

Lemma bytes_eqb_refl s : bytes_eqb s s = true.
Proof. induction s as [|c s IH]; simpl; [reflexivity|]. rewrite N.eqb_refl. exact IH. Qed.

Lemma bytes_eqb_eq a b : bytes_eqb a b = true <-> a = b.
Proof.
  revert b; induction a as [|x a IH]; intros [|y b]; simpl; split; intro H; try easy.
  - apply andb_true_iff in H as [H1 H2]. apply N.eqb_eq in H1. apply IH in H2. congruence.
  - injection H as -> ->. rewrite N.eqb_refl. simpl. apply IH. reflexivity.
Qed.

Lemma bytes_eqb_neq a b : bytes_eqb a b = false <-> a <> b.
Proof.
  destruct (bytes_eqb a b) eqn:E.
  - apply bytes_eqb_eq in E. split; [discriminate|intro H; contradiction].
  - split; [intros _ H|reflexivity]. subst. rewrite bytes_eqb_refl in E. discriminate.
Qed.

Lemma bytes_eqb_sym a b : bytes_eqb a b = bytes_eqb b a.
Proof.
  destruct (bytes_eqb b a) eqn:E.
  - apply bytes_eqb_eq in E. subst. apply bytes_eqb_refl.
  - apply bytes_eqb_neq. apply bytes_eqb_neq in E. congruence.
Qed.

Lemma in_list_In x l : in_list x l = true <-> In x l.
Proof.
  unfold in_list. rewrite existsb_exists. split.
  - intros (y & Hy & E). apply bytes_eqb_eq in E. subst. exact Hy.
  - intro H. exists x. split; [exact H|apply bytes_eqb_refl].
Qed.

Definition bytes_dec (a b : bytes) : {a = b} + {a <> b}.
Proof. apply list_eq_dec. apply N.eq_dec. Defined.

(** ** Case *)
Lemma to_lower_idem c : to_lower (to_lower c) = to_lower c.
Proof. unfold to_lower, is_upper. destruct ((65 <=? c) && (c <=? 90))%N eqn:E; [|rewrite E; reflexivity].
  destruct ((65 <=? c + 32) && (c + 32 <=? 90))%N eqn:E2; lia. Qed.
Lemma lower_idem s : lower (lower s) = lower s.
Proof. unfold lower. rewrite map_map. apply map_ext. apply to_lower_idem. Qed.
Lemma lower_app a b : lower (a ++ b) = lower a ++ lower b.
Proof. apply map_app. Qed.
Lemma lower_length a : length (lower a) = length a.
Proof. apply map_length. Qed.

Lemma is_space_lower c : is_space (to_lower c) = is_space c.
Proof. unfold to_lower, is_upper, is_space. destruct ((65 <=? c) && (c <=? 90))%N eqn:E; lia. Qed.
Lemma to_lower_neq c d : is_lower d = false -> is_upper d = false -> (to_lower c =? d)%N = (c =? d)%N.
Proof. unfold to_lower, is_upper, is_lower. intros. destruct ((65 <=? c) && (c <=? 90))%N eqn:E; lia. Qed.

(** ** drop_while and strip *)
Lemma drop_while_none p s : (forall c t, s = c :: t -> p c = false) -> drop_while p s = s.
Proof. destruct s as [|c t]; simpl; intro H; [reflexivity|]. rewrite (H c t eq_refl). reflexivity. Qed.

Lemma drop_while_app_all p a s : forallb p a = true -> drop_while p (a ++ s) = drop_while p s.
Proof. induction a as [|c a IH]; simpl; intro H; [reflexivity|].
  apply andb_true_iff in H as [H1 H2]. rewrite H1. auto. Qed.

Lemma drop_while_all p a : forallb p a = true -> drop_while p a = [].
Proof. intro H. rewrite <- (app_nil_r a). rewrite drop_while_app_all by exact H. reflexivity. Qed.

Lemma drop_while_split p s : exists a, s = a ++ drop_while p s /\ forallb p a = true.
Proof.
  induction s as [|c t (a & E & H)]; simpl.
  - exists []. auto.
  - destruct (p c) eqn:Ec.
    + exists (c :: a). simpl. rewrite Ec. split; [congruence|exact H].
    + exists []. auto.
Qed.

Lemma drop_while_head p s c t : drop_while p s = c :: t -> p c = false.
Proof. induction s as [|x s IH]; simpl; [discriminate|]. destruct (p x) eqn:E; [exact IH|].
  intro H. injection H as -> ->. exact E. Qed.

Lemma drop_while_length p s : length (drop_while p s) <= length s.
Proof. destruct (drop_while_split p s) as (a & E & _).
  apply (f_equal (@length _)) in E. rewrite app_length in E. lia. Qed.

Lemma drop_while_drop_while p s : drop_while p (drop_while p s) = drop_while p s.
Proof. apply drop_while_none. intros c t E. apply (drop_while_head _ _ _ _ E). Qed.

(** A string that neither starts nor ends with white space. *)
Definition trimmed (s : bytes) : Prop :=
  (forall c t, s = c :: t -> is_space c = false) /\
  (forall t c, s = t ++ [c] -> is_space c = false).

Lemma trimmed_nil : trimmed [].
Proof. split; intros c t E; [discriminate|]. destruct c; discriminate. Qed.

Lemma lstrip_trimmed s : trimmed s -> lstrip s = s.
Proof. intros [H _]. apply drop_while_none. exact H. Qed.
Lemma rstrip_trimmed s : trimmed s -> rstrip s = s.
Proof. intros [_ H]. unfold rstrip. rewrite drop_while_none; [apply rev_involutive|].
  intros c t E. apply (H (rev t) c). rewrite <- (rev_involutive s), E. reflexivity. Qed.
Lemma strip_trimmed s : trimmed s -> strip s = s.
Proof. intro H. unfold strip. rewrite lstrip_trimmed by exact H. apply rstrip_trimmed. exact H. Qed.

Lemma rstrip_split s : exists b, s = rstrip s ++ b /\ forallb is_space b = true.
Proof.
  destruct (drop_while_split is_space (rev s)) as (a & E & H).
  exists (rev a). unfold rstrip. split.
  - rewrite <- rev_app_distr, <- E. symmetry. apply rev_involutive.
  - rewrite forallb_forall in *. intros x Hx. apply H. apply in_rev. exact Hx.
Qed.
Lemma lstrip_split s : exists a, s = a ++ lstrip s /\ forallb is_space a = true.
Proof. apply drop_while_split. Qed.
Lemma strip_split s : exists a b, s = a ++ strip s ++ b /\ forallb is_space a = true /\ forallb is_space b = true.
Proof.
  destruct (lstrip_split s) as (a & Ea & Ha). destruct (rstrip_split (lstrip s)) as (b & Eb & Hb).
  exists a, b. unfold strip. split; [congruence|auto].
Qed.

Lemma strip_pad a s b : forallb is_space a = true -> forallb is_space b = true -> trimmed s ->
  strip (a ++ s ++ b) = s.
Proof.
  intros Ha Hb Hs. unfold strip, lstrip. rewrite drop_while_app_all by exact Ha.
  destruct s as [|c s].
  - simpl. rewrite drop_while_all by exact Hb. reflexivity.
  - rewrite drop_while_none.
    + unfold rstrip. rewrite rev_app_distr, drop_while_app_all.
      * rewrite drop_while_none; [apply rev_involutive|].
        intros x t E. destruct Hs as [_ H]. apply (H (rev t) x).
        rewrite <- (rev_involutive (c :: s)), E. reflexivity.
      * rewrite forallb_forall in *. intros x Hx. apply Hb. apply in_rev. exact Hx.
    + intros x t E. simpl in E. injection E as -> _. destruct Hs as [H _]. apply (H x s eq_refl).
Qed.

Lemma strip_is_trimmed s : trimmed (strip s).
Proof.
  unfold strip. split.
  - intros c t E. destruct (rstrip_split (lstrip s)) as (b & Eb & _).
    rewrite E in Eb. apply (drop_while_head is_space s c (t ++ b)). unfold lstrip in Eb. rewrite Eb at 1. reflexivity.
  - intros t c E. unfold rstrip in E.
    apply (f_equal (@rev _)) in E. rewrite rev_involutive, rev_app_distr in E. simpl in E.
    apply (drop_while_head _ _ _ _ E).
Qed.

Lemma In_strip x s : In x (strip s) -> In x s.
Proof. destruct (strip_split s) as (a & b & E & _). intro H. rewrite E.
  apply in_or_app. right. apply in_or_app. left. exact H. Qed.

(** ** startswith, contains *)
Lemma startswith_app p s : startswith p (p ++ s) = true.
Proof. induction p as [|c p IH]; simpl; [reflexivity|]. rewrite N.eqb_refl. exact IH. Qed.
Lemma startswith_iff p s : startswith p s = true <-> exists t, s = p ++ t.
Proof.
  split.
  - revert s; induction p as [|c p IH]; intros s H; [exists s; reflexivity|].
    destruct s as [|d s]; simpl in H; [discriminate|].
    apply andb_true_iff in H as [H1 H2]. apply N.eqb_eq in H1. subst.
    destruct (IH _ H2) as [t ->]. exists t. reflexivity.
  - intros [t ->]. apply startswith_app.
Qed.
Lemma contains_iff sub s : contains sub s = true <-> exists a b, s = a ++ sub ++ b.
Proof.
  split.
  - induction s as [|c s IH]; simpl; intro H.
    + rewrite orb_false_r in H. apply startswith_iff in H as [t E]. exists [], t. exact E.
    + apply orb_true_iff in H as [H|H].
      * apply startswith_iff in H as [t E]. exists [], t. exact E.
      * destruct (IH H) as (a & b & ->). exists (c :: a), b. reflexivity.
  - intros (a & b & ->). induction a as [|c a IH].
    + change ([] ++ sub ++ b) with (sub ++ b).
      assert (H := startswith_app sub b).
      destruct (sub ++ b); simpl; simpl in H; rewrite H; reflexivity.
    + simpl. rewrite IH. apply orb_true_r.
Qed.

(** ** split_once *)
Lemma split_once_hit sep a b : ~ In sep a -> split_once sep (a ++ sep :: b) = Some (a, b).
Proof.
  induction a as [|c a IH]; simpl; intro H.
  - rewrite N.eqb_refl. reflexivity.
  - destruct (N.eqb_spec c sep) as [->|Hc]; [exfalso; apply H; left; reflexivity|].
    rewrite IH by (intro; apply H; right; assumption). reflexivity.
Qed.
Lemma split_once_some sep s a b : split_once sep s = Some (a, b) <-> s = a ++ sep :: b /\ ~ In sep a.
Proof.
  split; [|intros [-> H]; apply split_once_hit; exact H].
  revert a b; induction s as [|c s IH]; intros a b; simpl; [discriminate|].
  destruct (N.eqb_spec c sep) as [->|Hc].
  - intro H. injection H as <- <-. auto.
  - destruct (split_once sep s) as [[a' b']|]; [|discriminate].
    intro H. injection H as <- <-. destruct (IH a' b' eq_refl) as [-> Hn].
    split; [reflexivity|]. intros [Hi|Hi]; [congruence|]. exact (Hn Hi).
Qed.
Lemma split_once_none sep s : split_once sep s = None <-> ~ In sep s.
Proof.
  split.
  - intros H Hi. apply in_split in Hi as (a & b & E).
    assert (Hx : exists a b, s = a ++ sep :: b /\ ~ In sep a).
    { clear -E. subst. induction a as [|c a IH]; [exists [], b; auto|].
      destruct (N.eqb_spec c sep) as [->|Hc]; [exists [], (a ++ sep :: b); auto|].
      destruct IH as (a' & b' & E & Hn). exists (c :: a'), b'. simpl. rewrite E. split; [reflexivity|].
      intros [Hi|Hi]; [congruence|auto]. }
    destruct Hx as (a' & b' & E' & Hn). rewrite E', split_once_hit in H by exact Hn. discriminate.
  - intro H. destruct (split_once sep s) as [[a b]|] eqn:E; [|reflexivity].
    apply split_once_some in E as [-> _]. exfalso. apply H. apply in_or_app. right. left. reflexivity.
Qed.

(** ** find *)
Lemma find_byte_hit c a b : ~ In c a -> find_byte c (a ++ c :: b) = Some (length a).
Proof.
  induction a as [|x a IH]; simpl; intro H.
  - rewrite N.eqb_refl. reflexivity.
  - destruct (N.eqb_spec x c) as [->|Hc]; [exfalso; apply H; left; reflexivity|].
    rewrite IH by (intro; apply H; right; assumption). reflexivity.
Qed.
Lemma find_byte_some c s n : find_byte c s = Some n <->
  exists a b, s = a ++ c :: b /\ ~ In c a /\ length a = n.
Proof.
  split; [|intros (a & b & -> & H & <-); apply find_byte_hit; exact H].
  revert n; induction s as [|x s IH]; intros n; simpl; [discriminate|].
  destruct (N.eqb_spec x c) as [->|Hc].
  - intro H. injection H as <-. exists [], s. auto.
  - destruct (find_byte c s) as [m|]; [|discriminate].
    intro H. injection H as <-. destruct (IH m eq_refl) as (a & b & -> & Hn & <-).
    exists (x :: a), b. split; [reflexivity|]. split; [|reflexivity]. intros [Hi|Hi]; [congruence|]. exact (Hn Hi).
Qed.
Lemma find_byte_none c s : find_byte c s = None <-> ~ In c s.
Proof.
  induction s as [|x s IH]; simpl; [tauto|].
  destruct (N.eqb_spec x c) as [->|Hx].
  - split; [discriminate|]. intro H; exfalso; apply H; auto.
  - destruct (find_byte c s) as [m|].
    + split; [discriminate|]. intro H. exfalso. assert (Some m = None) by (apply IH; intro; apply H; auto). discriminate.
    + split; [|reflexivity]. intros _ [H|H]; [contradiction|]. revert H. apply IH. reflexivity.
Qed.

(** ** Decimal numerals *)
Lemma digit_val_dec d : (d < 10)%N -> digit_val 10 (48 + d) = Some (Z.of_N d).
Proof. intro H. unfold digit_val, is_digit, is_lower, is_upper.
  assert (E : ((48 <=? 48 + d) && (48 + d <=? 57))%N = true) by lia. rewrite E.
  assert (E2 : (Z.of_N (48 + d) - 48 <? 10)%Z = true) by lia. rewrite E2. f_equal. lia. Qed.

Lemma int_digits_app base acc a : forall s, (forall c, In c a -> c <> 95%N /\ exists d, digit_val base c = Some d) ->
  int_digits base acc false (a ++ s) =
  int_digits base (fold_left (fun z c => z * base + match digit_val base c with Some d => d | None => 0 end)%Z a acc) false s.
Proof.
  revert acc; induction a as [|c a IH]; intros acc s H; simpl; [reflexivity|].
  destruct (H c (or_introl eq_refl)) as [Hc [d Hd]].
  apply N.eqb_neq in Hc. rewrite Hc, Hd. apply IH. intros x Hx. apply H. right. exact Hx.
Qed.

Lemma dec_fuel_step f n : dec_fuel (S f) n =
  if (n <? 10)%N then [(48 + n)%N] else dec_fuel f (n / 10) ++ [(48 + n mod 10)%N].
Proof. reflexivity. Qed.

Lemma dec_fuel_digits f n c : In c (dec_fuel f n) -> exists d, (d < 10)%N /\ c = (48 + d)%N.
Proof.
  revert n; induction f as [|f IH]; intro n; [intros []|]. rewrite dec_fuel_step.
  destruct (N.ltb_spec n 10) as [H|H].
  - intros [<-|[]]. exists n. auto.
  - intro Hi. apply in_app_or in Hi as [Hi|[<-|[]]]; [exact (IH _ Hi)|].
    exists (n mod 10)%N. split; [apply N.mod_lt; discriminate|reflexivity].
Qed.

Lemma pow10_S f : (10 ^ N.of_nat (S f) = 10 * 10 ^ N.of_nat f)%N.
Proof. rewrite Nat2N.inj_succ, N.pow_succ_r'. reflexivity. Qed.

Lemma dec_fuel_value f : forall n, (n < 10 ^ N.of_nat f)%N ->
  fold_left (fun z c => z * 10 + match digit_val 10 c with Some d => d | None => 0 end)%Z (dec_fuel f n) 0%Z = Z.of_N n.
Proof.
  induction f as [|f IH]; intros n Hn.
  - simpl in *. lia.
  - rewrite dec_fuel_step. rewrite pow10_S in Hn. destruct (N.ltb_spec n 10) as [H|H].
    + cbn [fold_left]. rewrite digit_val_dec by exact H. lia.
    + rewrite fold_left_app. rewrite IH.
      * cbn [fold_left]. rewrite digit_val_dec by (apply N.mod_lt; discriminate).
        rewrite N2Z.inj_div, N2Z.inj_mod. lia.
      * apply N.div_lt_upper_bound; lia.
Qed.

Lemma dec_fuel_nonempty f n : dec_fuel (S f) n <> [].
Proof. rewrite dec_fuel_step. destruct (n <? 10)%N; [discriminate|]. intro H. apply app_eq_nil in H as [_ H]. discriminate. Qed.

Lemma pos_size_lt p : (N.pos p < 2 ^ N.of_nat (Pos.size_nat p))%N.
Proof.
  induction p as [p IH|p IH|]; cbn [Pos.size_nat]; try rewrite Nat2N.inj_succ, N.pow_succ_r'; [lia|lia|reflexivity].
Qed.
Lemma size_pow10 n : (n < 10 ^ N.of_nat (S (N.size_nat n)))%N.
Proof.
  assert (H : (n < 2 ^ N.of_nat (N.size_nat n))%N).
  { destruct n as [|p]; [reflexivity|]. apply pos_size_lt. }
  rewrite pow10_S.
  assert (H2 : (2 ^ N.of_nat (N.size_nat n) <= 10 ^ N.of_nat (N.size_nat n))%N) by (apply N.pow_le_mono_l; lia).
  lia.
Qed.

Lemma dec_N_digits n c : In c (dec_N n) -> is_digit c = true.
Proof. intro H. apply dec_fuel_digits in H as (d & Hd & ->). unfold is_digit. lia. Qed.
Lemma dec_N_nonempty n : dec_N n <> [].
Proof. apply dec_fuel_nonempty. Qed.
Lemma is_digit_not_space c : is_digit c = true -> is_space c = false.
Proof. unfold is_digit, is_space. lia. Qed.
Lemma digits_trimmed s : (forall c, In c s -> is_digit c = true) -> trimmed s.
Proof.
  intro H. split.
  - intros c t ->. apply is_digit_not_space, H. left. reflexivity.
  - intros t c ->. apply is_digit_not_space, H. apply in_or_app. right. left. reflexivity.
Qed.
Lemma dec_N_trimmed n : trimmed (dec_N n).
Proof. apply digits_trimmed. intro c. apply dec_N_digits. Qed.

Lemma sign_match c (s : bytes) : c <> 43%N -> c <> 45%N ->
  int_sign (c :: s) = (false, c :: s).
Proof.
  intros H1 H2. destruct c as [|p]; [reflexivity|].
  do 6 (destruct p as [p|p|]; try reflexivity); congruence.
Qed.
Lemma int_prefix_10 s : int_prefix 10 s = s.
Proof.
  unfold int_prefix. simpl Z.eqb. cbn [andb].
  destruct s as [|c s]; [reflexivity|]. destruct c as [|p]; [reflexivity|].
  do 6 (destruct p as [p|p|]; try reflexivity). destruct s; reflexivity.
Qed.

(** int(str(n)) = n *)
Lemma py_int_dec_N n : py_int 10 (dec_N n) = Some (Z.of_N n).
Proof.
  unfold py_int. rewrite lstrip_trimmed by apply dec_N_trimmed.
  assert (Hd : forall c, In c (dec_N n) -> exists d, (d < 10)%N /\ c = (48 + d)%N)
    by (intros c Hc; apply (dec_fuel_digits _ _ _ Hc)).
  assert (Hv : fold_left (fun z c => z * 10 + match digit_val 10 c with Some d => d | None => 0 end)%Z (dec_N n) 0%Z = Z.of_N n)
    by (apply dec_fuel_value, size_pow10).
  assert (Hne := dec_N_nonempty n).
  destruct (dec_N n) as [|c0 s] eqn:E; [contradiction|].
  destruct (Hd c0 (or_introl eq_refl)) as (d0 & Hd0 & E0).
  rewrite sign_match by lia.
  assert (Hp : int_prefix 10 (c0 :: s) = c0 :: s).
  { apply int_prefix_10. }
  rewrite Hp. unfold int_unsigned. rewrite E0, digit_val_dec by exact Hd0. rewrite <- E0.
  rewrite <- (app_nil_r (c0 :: s)). rewrite int_digits_app.
  - rewrite Hv. reflexivity.
  - intros c Hc. destruct (Hd c Hc) as (d & Hlt & ->). split; [lia|].
    exists (Z.of_N d). apply digit_val_dec. exact Hlt.
Qed.
Lemma py_int_dec_nat n : py_int 10 (dec_nat n) = Some (Z.of_nat n).
Proof. unfold dec_nat. rewrite py_int_dec_N. f_equal. lia. Qed.
