(** C97: records that share lists. *)
From Verif Require Export Shared.
From Coq Require Import String List Lia.
Open Scope list_scope.

(** ** Specification *)
(** a program that uses headers only through the API: no append to a header list and no assignment *)
Definition api_only (o : rop) : Prop := match o with AppendHeader _ _ | AssignHeaders _ _ => False | _ => True end.
(** the calls of set_header on record r, in order *)
Fixpoint own_sets (r : nat) (l : list rop) : list (bytes * bytes) :=
  match l with
  | SetHeader r' n v :: t => if Nat.eqb r' r then (n, v) :: own_sets r t else own_sets r t
  | _ :: t => own_sets r t
  | [] => []
  end.
(** set_header on a value *)
Definition set_value (h : list header) (nv : bytes * bytes) : list header :=
  filter (fun kv => negb (bytes_eqb (fst kv) (fst nv))) h ++ [nv].
(** the calls of error() on record r, in order *)
Fixpoint own_complaints (r : nat) (l : list rop) : list complaint :=
  match l with
  | Complain r' x :: t => if Nat.eqb r' r then x :: own_complaints r t else own_complaints r t
  | _ :: t => own_complaints r t
  | [] => []
  end.
(** two records hold the same list *)
Definition same_headers (w : world) (r r' : nat) : Prop := exists a b b', nth_error (w_records w) r = Some (a, b) /\ nth_error (w_records w) r' = Some (a, b').
Definition same_errors (w : world) (r r' : nat) : Prop := exists a a' b, nth_error (w_records w) r = Some (a, b) /\ nth_error (w_records w) r' = Some (a', b).
(** the error list of record r is nobody else's, and no new record is given it *)
Definition not_given (b : nat) (o : rop) : Prop := match o with NewRecord _ (Some e) => e <> b | _ => True end.
Definition errors_alone (w : world) (r : nat) : Prop := forall r', same_errors w r r' -> r' = r.

(** ** Lemmas *)
Lemma put_length {A} (x : A) l : forall i, List.length (put i x l) = List.length l.
Proof. induction l as [|a l IH]; intros [|i]; cbn; congruence. Qed.
Lemma nth_error_put {A} (x : A) l : forall i j, nth_error (put i x l) j = if Nat.eqb i j then match nth_error l j with Some _ => Some x | None => None end else nth_error l j.
Proof.
  induction l as [|a l IH]; intros i j; [destruct i, j; cbn; try reflexivity; destruct (Nat.eqb i j); reflexivity|].
  destruct i, j; cbn; try reflexivity. apply IH.
Qed.
Lemma nth_put {A} (x d : A) l : forall i j, i <> j -> nth j (put i x l) d = nth j l d.
Proof. induction l as [|a l IH]; intros i j H; [destruct i; reflexivity|]. destruct i, j; cbn; try reflexivity; [congruence|]. apply IH. congruence. Qed.
Lemma nth_put_same {A} (x d : A) l : forall i, i < List.length l -> nth i (put i x l) d = x.
Proof. induction l as [|a l IH]; intros i H; [cbn in H; lia|]. destruct i; cbn; [reflexivity|]. apply IH. cbn in H. lia. Qed.
(** every record's lists exist *)
Definition sound (w : world) : Prop := forall r a b, nth_error (w_records w) r = Some (a, b) -> a < List.length (w_headers w) /\ b < List.length (w_errors w).
(** what a program passes as a list is one it has *)
Definition known (w : world) (o : rop) : Prop :=
  match o with
  | NewRecord h e => match h with Some a => a < List.length (w_headers w) | None => True end /\ match e with Some b => b < List.length (w_errors w) | None => True end
  | AssignHeaders _ h => h < List.length (w_headers w)
  | _ => True
  end.
Fixpoint all_known (w : world) (l : list rop) : Prop := match l with [] => True | o :: t => known w o /\ all_known (do_rop w o) t end.
Lemma given_sound {A} (lists : list (list A)) x : match x with Some a => a < List.length lists | None => True end ->
  let '(a, l2) := given_or_new lists x in a < List.length l2 /\ exists more, l2 = lists ++ more /\
    (a = List.length lists /\ more = [[]] /\ (x = None \/ exists a0, x = Some a0 /\ nth a0 lists [] = []) \/ x = Some a /\ more = [] /\ nth a lists [] <> []).
Proof.
  intro H. unfold given_or_new. destruct x as [a|].
  - destruct (nth a lists []) as [|y t] eqn:E.
    + split; [rewrite app_length; cbn; lia|]. exists [[]]. split; [reflexivity|]. left. split; [reflexivity|split; [reflexivity|right; exists a; split; [reflexivity|exact E]]].
    + split; [exact H|]. exists []. rewrite app_nil_r. split; [reflexivity|]. right. rewrite E. split; [reflexivity|split; [reflexivity|discriminate]].
  - split; [rewrite app_length; cbn; lia|]. exists [[]]. split; [reflexivity|]. left. split; [reflexivity|split; [reflexivity|left; reflexivity]].
Qed.
Lemma nth_error_snoc {A} (l : list A) x r y : nth_error (l ++ [x]) r = Some y -> nth_error l r = Some y \/ (r = List.length l /\ y = x).
Proof.
  intro H. destruct (Nat.lt_ge_cases r (List.length l)) as [L|L].
  - left. rewrite nth_error_app1 in H by exact L. exact H.
  - right. rewrite nth_error_app2 in H by exact L. destruct (r - List.length l) as [|k] eqn:E; cbn in H; [|destruct k; discriminate]. split; [lia|congruence].
Qed.
Lemma do_sound w o : sound w -> known w o -> sound (do_rop w o).
Proof.
  intros Hs Hk. destruct o as [l|l|h e|h e|r n v|r args|h x|r h]; cbn [do_rop known] in *.
  - intros r a b H. destruct (Hs r a b H). cbn [w_headers w_errors]. rewrite app_length. split; lia.
  - intros r a b H. destruct (Hs r a b H). cbn [w_headers w_errors]. rewrite app_length. split; lia.
  - destruct Hk as [K1 K2]. pose proof (given_sound (w_headers w) h K1) as X. pose proof (given_sound (w_errors w) e K2) as Y.
    destruct (given_or_new (w_headers w) h) as [a hs]. destruct (given_or_new (w_errors w) e) as [b es]. destruct X as (X1 & m1 & -> & _), Y as (Y1 & m2 & -> & _).
    intros r a' b' H. cbn [w_headers w_errors w_records] in *. apply nth_error_snoc in H as [H|[_ H]]; [|injection H as -> ->; split; assumption].
    destruct (Hs r a' b' H). rewrite !app_length. split; lia.
  - intros r a b H. cbn [w_headers w_errors w_records] in *. rewrite !app_length. cbn. apply nth_error_snoc in H as [H|[_ H]]; [destruct (Hs r a b H); split; lia|injection H as -> ->; split; lia].
  - destruct (nth_error (w_records w) r) as [[a b]|] eqn:E; [|exact Hs]. intros r' a' b' H. cbn [w_headers w_errors w_records] in *. rewrite app_length. cbn.
    rewrite nth_error_put in H. destruct (Nat.eqb r r'); [|destruct (Hs r' a' b' H); split; lia].
    destruct (nth_error (w_records w) r'); [|discriminate]. injection H as <- <-. destruct (Hs r a b E). split; lia.
  - destruct (nth_error (w_records w) r) as [[a b]|] eqn:E; [|exact Hs]. intros r' a' b' H. cbn [w_headers w_errors w_records] in *. rewrite put_length. exact (Hs r' a' b' H).
  - intros r a b H. cbn [w_headers w_errors w_records] in *. rewrite put_length. exact (Hs r a b H).
  - destruct (nth_error (w_records w) r) as [[a b]|] eqn:E; [|exact Hs]. intros r' a' b' H. cbn [w_headers w_errors w_records] in *.
    rewrite nth_error_put in H. destruct (Nat.eqb r r'); [|exact (Hs r' a' b' H)]. destruct (nth_error (w_records w) r'); [|discriminate]. injection H as <- <-.
    destruct (Hs r a b E). split; assumption.
Qed.
Lemma dos_sound l : forall w, sound w -> all_known w l -> sound (do_rops w l).
Proof. induction l as [|o l IH]; intros w Hs Hk; [exact Hs|]. destruct Hk as [K1 K2]. exact (IH _ (do_sound w o Hs K1) K2). Qed.

(** ** C97 *)
(** *** set_header changes the record it is called on, and nothing else: no list that was there, so no other record and no list the
    caller has, whoever shares what *)
Theorem C97_set_header_touches_one_record : forall w r n v h, sound w -> headers_of w r = Some h ->
  let w' := do_rop w (SetHeader r n v) in
  headers_of w' r = Some (set_value h (n, v)) /\
  (forall r', r' <> r -> headers_of w' r' = headers_of w r') /\
  (forall r', errors_of w' r' = errors_of w r') /\
  (forall a, a < List.length (w_headers w) -> nth a (w_headers w') [] = nth a (w_headers w) []) /\
  w_errors w' = w_errors w /\
  (forall r', r' <> r -> ~ same_headers w' r r').
Proof.
  intros w r n v h Hs H w'. unfold headers_of in H. destruct (nth_error (w_records w) r) as [[a b]|] eqn:E; [|discriminate]. injection H as <-.
  assert (W : w' = mkworld (w_headers w ++ [set_value (nth a (w_headers w) []) (n, v)]) (w_errors w) (put r (List.length (w_headers w), b) (w_records w))).
  { unfold w'. cbn [do_rop]. rewrite E. reflexivity. }
  clearbody w'. subst w'. unfold headers_of, errors_of, same_headers. cbn [w_headers w_errors w_records].
  split; [rewrite nth_error_put, Nat.eqb_refl, E, app_nth2, Nat.sub_diag by lia; reflexivity|].
  split.
  { intros r' Hr. rewrite nth_error_put. assert (X : Nat.eqb r r' = false) by (apply Nat.eqb_neq; congruence). rewrite X.
    destruct (nth_error (w_records w) r') as [[a' b']|] eqn:E'; [|reflexivity]. destruct (Hs r' a' b' E') as [L _]. rewrite app_nth1 by exact L. reflexivity. }
  split.
  { intro r'. rewrite nth_error_put. destruct (Nat.eqb_spec r r') as [<-|]; [rewrite E; reflexivity|reflexivity]. }
  split; [intros a' L; rewrite app_nth1 by exact L; reflexivity|]. split; [reflexivity|].
  intros r' Hr (x & y & z & H1 & H2). rewrite nth_error_put, Nat.eqb_refl, E in H1. injection H1 as <- <-.
  rewrite nth_error_put in H2. assert (X : Nat.eqb r r' = false) by (apply Nat.eqb_neq; congruence). rewrite X in H2. destruct (Hs r' _ _ H2) as [L _]. lia.
Qed.
(** *** so in a program that does not append to header lists itself, a record's headers depend on its own calls only, even if records
    were made from the same list *)
Theorem C97_headers_are_the_records_own : forall l w r h, sound w -> all_known w l -> Forall api_only l -> headers_of w r = Some h ->
  headers_of (do_rops w l) r = Some (fold_left set_value (own_sets r l) h).
Proof.
  induction l as [|o l IH]; intros w r h Hs Hk Ha H; [exact H|]. destruct Hk as [K1 K2]. apply Forall_cons_iff in Ha as [A1 A2].
  pose proof (do_sound w o Hs K1) as Hs2. cbn [do_rops fold_left]. change (fold_left do_rop l (do_rop w o)) with (do_rops (do_rop w o) l).
  assert (Same : headers_of (do_rop w o) r = Some h -> own_sets r (o :: l) = own_sets r l -> headers_of (do_rops (do_rop w o) l) r = Some (fold_left set_value (own_sets r (o :: l)) h)).
  { intros H2 Eo. rewrite Eo. exact (IH (do_rop w o) r h Hs2 K2 A2 H2). }
  unfold headers_of in H. destruct (nth_error (w_records w) r) as [[a b]|] eqn:E; [|discriminate]. destruct (Hs r a b E) as [L1 L2].
  assert (Lr : r < List.length (w_records w)) by (apply nth_error_Some; congruence).
  destruct o as [hl|el|hx ex|hl el|r' n v|r' args|hh x|r' hh]; try contradiction.
  - apply Same; [|reflexivity]. unfold headers_of. cbn [do_rop w_records w_headers]. rewrite E, app_nth1 by exact L1. exact H.
  - apply Same; [|reflexivity]. unfold headers_of. cbn [do_rop w_records w_headers]. rewrite E. exact H.
  - apply Same; [|reflexivity]. destruct K1 as [Ka Kb]. pose proof (given_sound (w_headers w) hx Ka) as X. unfold headers_of. cbn [do_rop].
    destruct (given_or_new (w_headers w) hx) as [a2 hs]. destruct (given_or_new (w_errors w) ex) as [b2 es]. destruct X as (_ & m1 & -> & _). cbn [w_records w_headers].
    rewrite nth_error_app1, E, app_nth1 by assumption. exact H.
  - apply Same; [|reflexivity]. unfold headers_of. cbn [do_rop w_records w_headers]. rewrite nth_error_app1, E, app_nth1 by assumption. exact H.
  - cbn [own_sets]. destruct (Nat.eqb_spec r' r) as [->|N].
    + cbn [fold_left]. apply IH; try assumption. apply C97_set_header_touches_one_record; [exact Hs|]. unfold headers_of. rewrite E. exact H.
    + apply IH; try assumption. destruct (headers_of w r') as [h'|] eqn:Er.
      * destruct (C97_set_header_touches_one_record w r' n v h' Hs Er) as (_ & F & _). rewrite (F r (not_eq_sym N)). unfold headers_of. rewrite E. exact H.
      * unfold headers_of in Er. cbn [do_rop]. destruct (nth_error (w_records w) r') as [[a' b']|]; [discriminate|]. unfold headers_of. rewrite E. exact H.
  - apply Same; [|reflexivity]. unfold headers_of. cbn [do_rop]. destruct (nth_error (w_records w) r') as [[a' b']|]; cbn [w_records w_headers]; rewrite E; exact H.
Qed.
(** *** error() is seen by exactly the records that hold the same list *)
Theorem C97_error_is_seen_by_sharers : forall w r x e, sound w -> errors_of w r = Some e ->
  let w' := do_rop w (Complain r x) in
  errors_of w' r = Some (e ++ [x]) /\
  (forall r', same_errors w r r' -> errors_of w' r' = Some (e ++ [x])) /\
  (forall r', ~ same_errors w r r' -> errors_of w' r' = errors_of w r') /\
  (forall r', headers_of w' r' = headers_of w r').
Proof.
  intros w r x e Hs H w'. unfold errors_of in H. destruct (nth_error (w_records w) r) as [[a b]|] eqn:E; [|discriminate]. injection H as <-. destruct (Hs r a b E) as [_ L].
  assert (W : w' = mkworld (w_headers w) (put b (nth b (w_errors w) [] ++ [x]) (w_errors w)) (w_records w)) by (unfold w'; cbn [do_rop]; rewrite E; reflexivity).
  clearbody w'. subst w'. unfold errors_of, headers_of, same_errors. cbn [w_headers w_errors w_records].
  split; [rewrite E, nth_put_same by exact L; reflexivity|]. split; [|split; [|reflexivity]].
  - intros r' (a1 & a' & b1 & H1 & H2). rewrite E in H1. injection H1 as <- <-. rewrite H2, nth_put_same by exact L. reflexivity.
  - intros r' Hn. destruct (nth_error (w_records w) r') as [[a' b']|] eqn:E'; [|reflexivity]. rewrite nth_put; [reflexivity|].
    intro X. subst b'. apply Hn. exists a, a', b. split; [exact E|reflexivity].
Qed.
(** *** which records share: a new record holds the list it was given if that is not empty; made without a list, with an empty one, or
    by a parser, it shares with nobody *)
Theorem C97_who_shares : forall w, sound w ->
  (forall h e, known w (NewRecord h e) -> let w' := do_rop w (NewRecord h e) in let r := List.length (w_records w) in
     exists a b, nth_error (w_records w') r = Some (a, b) /\
       (forall a0, h = Some a0 -> nth a0 (w_headers w) [] <> [] -> a = a0) /\
       (forall b0, e = Some b0 -> nth b0 (w_errors w) [] <> [] -> b = b0) /\
       ((h = None \/ exists a0, h = Some a0 /\ nth a0 (w_headers w) [] = []) -> headers_of w' r = Some [] /\ forall r', r' <> r -> ~ same_headers w' r r') /\
       ((e = None \/ exists b0, e = Some b0 /\ nth b0 (w_errors w) [] = []) -> errors_of w' r = Some [] /\ forall r', r' <> r -> ~ same_errors w' r r')) /\
  (forall h e, let w' := do_rop w (ReadRecord h e) in let r := List.length (w_records w) in
     headers_of w' r = Some h /\ errors_of w' r = Some e /\ forall r', r' <> r -> ~ same_headers w' r r' /\ ~ same_errors w' r r').
Proof.
  intros w Hs. split.
  - intros h e [K1 K2]. cbn zeta. cbn [do_rop]. pose proof (given_sound (w_headers w) h K1) as X. pose proof (given_sound (w_errors w) e K2) as Y.
    destruct (given_or_new (w_headers w) h) as [a hs]. destruct (given_or_new (w_errors w) e) as [b es]. destruct X as (_ & m1 & -> & X), Y as (_ & m2 & -> & Y).
    assert (R : nth_error (w_records w ++ [(a, b)]) (List.length (w_records w)) = Some (a, b)) by (rewrite nth_error_app2, Nat.sub_diag by lia; reflexivity).
    exists a, b. cbn [w_records w_headers w_errors]. split; [exact R|]. split; [|split; [|split]].
    + intros a0 -> Hn. destruct X as [(_ & _ & [X|(a1 & X & X2)])|(X & _)]; [discriminate| |injection X as <-; reflexivity]. injection X as <-. contradiction.
    + intros b0 -> Hn. destruct Y as [(_ & _ & [Y|(b1 & Y & Y2)])|(Y & _)]; [discriminate| |injection Y as <-; reflexivity]. injection Y as <-. contradiction.
    + intro Hh. destruct X as [(-> & -> & _)|(-> & _ & X)]; [|destruct Hh as [Hh|(a0 & Hh & Hh2)]; [discriminate|injection Hh as <-; contradiction]].
      unfold headers_of. cbn [w_records w_headers]. rewrite R, app_nth2, Nat.sub_diag by lia. split; [reflexivity|].
      intros r' Hr (x & y & z & H1 & H2). cbn [w_records] in H1, H2. rewrite R in H1. injection H1 as <- <-. apply nth_error_snoc in H2 as [H2|[H2 _]]; [|contradiction].
      destruct (Hs r' _ _ H2) as [L _]. lia.
    + intro Hh. destruct Y as [(-> & -> & _)|(-> & _ & Y)]; [|destruct Hh as [Hh|(b0 & Hh & Hh2)]; [discriminate|injection Hh as <-; contradiction]].
      unfold errors_of. cbn [w_records w_errors]. rewrite R, app_nth2, Nat.sub_diag by lia. split; [reflexivity|].
      intros r' Hr (x & y & z & H1 & H2). cbn [w_records] in H1, H2. rewrite R in H1. injection H1 as <- <-. apply nth_error_snoc in H2 as [H2|[H2 _]]; [|contradiction].
      destruct (Hs r' _ _ H2) as [_ L]. lia.
  - intros h e. cbn zeta. cbn [do_rop].
    assert (R : forall x : nat * nat, nth_error (w_records w ++ [x]) (List.length (w_records w)) = Some x) by (intro x; rewrite nth_error_app2, Nat.sub_diag by lia; reflexivity).
    unfold headers_of, errors_of. cbn [w_records w_headers w_errors]. rewrite R, !app_nth2, !Nat.sub_diag by lia. split; [reflexivity|]. split; [reflexivity|].
    intros r' Hr. split; intros (x & y & z & H1 & H2); cbn [w_records] in H1, H2; rewrite R in H1; injection H1 as <- <-; apply nth_error_snoc in H2 as [H2|[H2 _]]; try contradiction;
      destruct (Hs r' _ _ H2) as [L1 L2]; lia.
Qed.
(** *** a record whose error list is its own has its own errors, whatever happens to the other records *)
Theorem C97_errors_are_the_records_own : forall l w r a b, sound w -> all_known w l ->
  nth_error (w_records w) r = Some (a, b) -> errors_alone w r -> Forall (not_given b) l ->
  errors_of (do_rops w l) r = Some (nth b (w_errors w) [] ++ own_complaints r l).
Proof.
  induction l as [|o l IH]; intros w r a b Hs Hk E Hal Hn.
  - cbn [do_rops fold_left own_complaints]. unfold errors_of. rewrite E, app_nil_r. reflexivity.
  - destruct Hk as [K1 K2]. apply Forall_cons_iff in Hn as [N1 N2]. pose proof (do_sound w o Hs K1) as Hs2. destruct (Hs r a b E) as [L1 L2].
    assert (Lr : r < List.length (w_records w)) by (apply nth_error_Some; congruence).
    change (do_rops w (o :: l)) with (do_rops (do_rop w o) l).
    assert (Hal' : forall r' a', nth_error (w_records w) r' = Some (a', b) -> r' = r) by (intros r' a' H; apply Hal; exists a, a', b; split; [exact E|exact H]).
    assert (Step : forall a2, nth_error (w_records (do_rop w o)) r = Some (a2, b) -> (forall r' a', nth_error (w_records (do_rop w o)) r' = Some (a', b) -> r' = r) ->
        nth b (w_errors (do_rop w o)) [] = nth b (w_errors w) [] -> own_complaints r (o :: l) = own_complaints r l ->
        errors_of (do_rops (do_rop w o) l) r = Some (nth b (w_errors w) [] ++ own_complaints r (o :: l))).
    { intros a2 H1 H2 H3 H4. rewrite H4, <- H3. apply (IH _ r a2 b Hs2 K2 H1); [|exact N2]. intros r' (x & y & z & X1 & X2). rewrite H1 in X1. injection X1 as <- <-. exact (H2 r' y X2). }
    destruct o as [hl|el|hx ex|hl el|r' n v|r' args|hh x|r' hh].
    + apply (Step a); try reflexivity; assumption.
    + apply (Step a); try reflexivity; try assumption. cbn [do_rop w_errors]. rewrite app_nth1 by exact L2. reflexivity.
    + cbn [known not_given] in K1, N1. destruct K1 as [Ka Kb]. pose proof (given_sound (w_errors w) ex Kb) as Y. pose proof (given_sound (w_headers w) hx Ka) as X.
      cbn [do_rop] in *. destruct (given_or_new (w_headers w) hx) as [a2 hs]. destruct (given_or_new (w_errors w) ex) as [b2 es]. destruct Y as (_ & m2 & -> & Y).
      cbn [w_records w_errors w_headers] in *.
      apply (Step a); try reflexivity.
      * rewrite nth_error_app1 by exact Lr. exact E.
      * intros r0 a0 H. apply nth_error_snoc in H as [H|[_ H]]; [exact (Hal' r0 a0 H)|]. exfalso. injection H as _ ->.
        destruct Y as [(-> & _)|(-> & _)]; [lia|]. exact (N1 eq_refl).
      * rewrite app_nth1 by exact L2. reflexivity.
    + cbn [do_rop] in *. cbn [w_records w_errors w_headers] in *. apply (Step a); try reflexivity.
      * rewrite nth_error_app1 by exact Lr. exact E.
      * intros r0 a0 H. apply nth_error_snoc in H as [H|[_ H]]; [exact (Hal' r0 a0 H)|]. injection H as _ ->. lia.
      * rewrite app_nth1 by exact L2. reflexivity.
    + cbn [do_rop] in *. destruct (nth_error (w_records w) r') as [[a' b']|] eqn:E'; [|apply (Step a); try reflexivity; assumption]. cbn [w_records w_errors w_headers] in *.
      destruct (Nat.eqb_spec r' r) as [->|N].
      * rewrite E in E'. injection E' as <- <-. apply (Step (List.length (w_headers w))); try reflexivity; [rewrite nth_error_put, Nat.eqb_refl, E; reflexivity|].
        intros r0 a0 H. rewrite nth_error_put in H. destruct (Nat.eqb_spec r r0); [congruence|]. exact (Hal' r0 a0 H).
      * assert (Nb : b' <> b) by (intros ->; apply N; exact (Hal' r' a' E')). assert (X : Nat.eqb r' r = false) by (apply Nat.eqb_neq; exact N).
        apply (Step a); try reflexivity; [rewrite nth_error_put, X; exact E|].
        intros r0 a0 H. rewrite nth_error_put in H. destruct (Nat.eqb r' r0); [|exact (Hal' r0 a0 H)]. destruct (nth_error (w_records w) r0); [|discriminate]. congruence.
    + cbn [own_complaints]. cbn [do_rop] in *. destruct (nth_error (w_records w) r') as [[a' b']|] eqn:E'.
      2:{ destruct (Nat.eqb_spec r' r); [congruence|]. apply (IH w r a b Hs K2 E Hal N2). }
      cbn [w_records w_errors w_headers] in *. destruct (Nat.eqb_spec r' r) as [->|N].
      * rewrite E in E'. injection E' as <- <-. rewrite (IH _ r a b Hs2 K2 E Hal N2). cbn [w_errors]. rewrite nth_put_same by exact L2. rewrite <- app_assoc. reflexivity.
      * assert (Nb : b' <> b) by (intros ->; apply N; exact (Hal' r' a' E')).
        rewrite (IH _ r a b Hs2 K2 E Hal N2). cbn [w_errors]. rewrite nth_put by exact Nb. reflexivity.
    + apply (Step a); try reflexivity; assumption.
    + cbn [do_rop] in *. destruct (nth_error (w_records w) r') as [[a' b']|] eqn:E'; [|apply (Step a); try reflexivity; assumption]. cbn [w_records w_errors w_headers] in *.
      destruct (Nat.eqb_spec r' r) as [->|N].
      * rewrite E in E'. injection E' as <- <-. apply (Step hh); try reflexivity; [rewrite nth_error_put, Nat.eqb_refl, E; reflexivity|].
        intros r0 a0 H. rewrite nth_error_put in H. destruct (Nat.eqb_spec r r0); [congruence|]. exact (Hal' r0 a0 H).
      * assert (Nb : b' <> b) by (intros ->; apply N; exact (Hal' r' a' E')). assert (X : Nat.eqb r' r = false) by (apply Nat.eqb_neq; exact N).
        apply (Step a); try reflexivity; [rewrite nth_error_put, X; exact E|].
        intros r0 a0 H. rewrite nth_error_put in H. destruct (Nat.eqb r' r0); [|exact (Hal' r0 a0 H)]. destruct (nth_error (w_records w) r0); [|discriminate]. congruence.
Qed.
(** *** set_header here is that of Record.v *)
Theorem C97_same_set_header : forall w rec r n v, sound w -> headers_of w r = Some (r_headers rec) ->
  headers_of (do_rop w (SetHeader r n v)) r = Some (r_headers (set_header rec n v)).
Proof. intros w rec r n v Hs H. destruct (C97_set_header_touches_one_record w r n v _ Hs H) as (H1 & _). exact H1. Qed.
(** *** worlds that programs reach are sound *)
Theorem C97_reachable_worlds : forall l, all_known no_world l -> sound (do_rops no_world l).
Proof. intros l H. apply dos_sound; [intros r a b E; destruct r; discriminate|exact H]. Qed.

(** ** concrete cases: two records made from one header list and one error list *)
Definition h0 : list header := [(B "WARC-Type", B "resource")].
Definition two : list rop := [MakeHeaders h0; MakeErrors [[B "old"]]; NewRecord (Some 0) (Some 0); NewRecord (Some 0) (Some 0)].
Example C97_case : all_known no_world (two ++ [SetHeader 0 (B "WARC-Type") (B "request"); Complain 0 [B "new"]]) /\
  let w := do_rops no_world (two ++ [SetHeader 0 (B "WARC-Type") (B "request"); Complain 0 [B "new"]]) in
  headers_of w 0 = Some [(B "WARC-Type", B "request")] /\ headers_of w 1 = Some h0 /\
  errors_of w 0 = Some [[B "old"]; [B "new"]] /\ errors_of w 1 = Some [[B "old"]; [B "new"]].
Proof. split; [cbn; repeat split; lia|]. vm_compute. repeat split. Qed.
(** append to the list two records were made from: both see it, until set_header *)
Example C97_append_is_seen_by_both : let w := do_rops no_world (two ++ [AppendHeader 0 (B "A", B "1"); SetHeader 1 (B "B") (B "2"); AppendHeader 0 (B "C", B "3")]) in
  headers_of w 0 = Some (h0 ++ [(B "A", B "1"); (B "C", B "3")]) /\ headers_of w 1 = Some (h0 ++ [(B "A", B "1"); (B "B", B "2")]).
Proof. vm_compute. split; reflexivity. Qed.
(** made from an empty list they do not share *)
Example C97_empty_list_not_shared : let w := do_rops no_world [MakeErrors []; NewRecord None (Some 0); NewRecord None (Some 0); Complain 0 [B "x"]] in
  errors_of w 0 = Some [[B "x"]] /\ errors_of w 1 = Some [] /\ errors_alone w 0.
Proof.
  split; [reflexivity|split; [reflexivity|]]. intros r' (a & a' & b & H1 & H2). vm_compute in H1. injection H1 as <- <-.
  destruct r' as [|[|r']]; [reflexivity|vm_compute in H2; discriminate|]. destruct r'; discriminate.
Qed.
