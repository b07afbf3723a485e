(** C63: reading in instalments. *)
From Verif Require Export PropsPlace Checks.
From Coq Require Import String List Lia ZArith.
Open Scope list_scope.

(** ** Specification *)
(** A caller that logs, for every item handed out, the item and what the calls it made on the
    contents returned (or that one raised).  [plan] chooses the calls, from all that was
    logged before and the new item. *)
Definition log : Type := list (item * outcome (list bytes)).
Definition logging (plan : log -> item -> list cop) : log -> stream -> item -> outcome bool * log * stream :=
  reading_body plan (fun l it d => (true, l ++ [(it, d)])).
Definition with_record (e : item * outcome (list bytes)) : Prop := snd (fst (fst e)) <> None.
(** [n] items more than [limit] *)
Definition raise_limit (n : nat) (limit : option nat) : option nat := option_map (Nat.add n) limit.

(** ** Lemmas *)
Lemma loop_fuel {S} (body : S -> stream -> item -> outcome bool * S * stream) b :
  (forall s st it, later st (snd (body s st it))) ->
  forall f1 f2 limit s st, List.length (rest st) < f1 -> List.length (rest st) < f2 ->
  read_loop f1 limit b body s st = read_loop f2 limit b body s st.
Proof.
  intro Hb. induction f1 as [|f1 IH]; intros f2 limit s st H1 H2; [lia|]. destruct f2 as [|f2]; [lia|]. cbn [read_loop].
  pose proof (read_record_later st b) as [L P]. destruct (read_record st b) as [[it|e|] s1] eqn:Er; try reflexivity.
  pose proof (Hb s s1 it) as Lb. destruct (body s s1 it) as [[[[|]|e|] s'] s2] eqn:Eb; try reflexivity. cbn [fst snd] in *.
  destruct it as [[o [r|]] errs]; cbn [fst snd]; [|reflexivity]. specialize (P o r errs eq_refl). pose proof (later_rest _ _ Lb).
  rewrite (IH f2 (match limit with Some (Datatypes.S n) => Some n | _ => limit end) s' s2) by lia. reflexivity.
Qed.
Lemma loop_later plan b : forall fuel limit l st, later st (snd (read_loop fuel limit b (logging plan) l st)).
Proof.
  induction fuel as [|fuel IH]; intros limit l st; cbn [read_loop]; [destruct limit as [[|n]|]; apply later_refl|].
  destruct limit as [[|n]|]; [apply later_refl| |];
  (pose proof (read_record_later st b) as [L _]; destruct (read_record st b) as [[it|e|] s1]; [|exact L|exact L]; cbn [snd] in L;
   pose proof (reading_later plan (fun l it d => (true, l ++ [(it, d)])) l s1 it) as Lb; change (reading_body plan _) with (logging plan) in Lb;
   destruct (logging plan l s1 it) as [[[[|]|e|] l'] s2]; cbn [snd] in Lb; try (eapply later_trans; eassumption);
   destruct (snd (fst it)); [eapply later_trans; [eapply later_trans; eassumption|apply IH]|eapply later_trans; eassumption]).
Qed.
Lemma logging_eq plan l st it : exists d st', logging plan l st it = (Ret true, l ++ [(it, d)], st') /\ later st st'.
Proof.
  unfold logging, reading_body. pose proof (later_cops (plan l it) st) as L. destruct (run_cops st (plan l it)) as [d st'].
  exists d, st'. split; [reflexivity|exact L].
Qed.
(** one lemma about a limited loop *)
Lemma limited plan b : forall n fuel l st, List.length (rest st) < fuel ->
  let run limit := read_loop fuel limit b (logging plan) l st in
  let '(o, l1, st1) := run (Some n) in
  exists got, l1 = l ++ got /\ List.length got <= n /\
  ((o = Ret tt /\ List.length got = n /\ Forall with_record got /\
      forall limit f', List.length (rest st1) < f' -> run (raise_limit n limit) = read_loop f' limit b (logging plan) l1 st1) \/
   ((forall limit, run (raise_limit n limit) = (o, l1, st1)) /\
    (o = Ret tt -> exists before it d, got = before ++ [(it, d)] /\ Forall with_record before /\ snd (fst it) = None))).
Proof.
  induction n as [|n IH]; intros fuel l st Hf; cbv beta zeta.
  - assert (E : read_loop fuel (Some 0) b (logging plan) l st = (Ret tt, l, st)) by (destruct fuel; reflexivity). rewrite E.
    exists []. rewrite app_nil_r. split; [reflexivity|]. split; [cbn; lia|]. left. split; [reflexivity|]. split; [reflexivity|]. split; [constructor|].
    intros limit f' Hf'. assert (El : raise_limit 0 limit = limit) by (destruct limit; reflexivity). rewrite El.
    apply loop_fuel; [apply reading_later|exact Hf|exact Hf'].
  - destruct fuel as [|fuel]; [lia|]. 
    assert (Er : forall limit, read_loop (S fuel) (raise_limit (S n) limit) b (logging plan) l st =
      match read_record st b with
      | (Ret it, s1) => match logging plan l s1 it with
          | (Ret true, l', s2) => match snd (fst it) with Some _ => read_loop fuel (raise_limit n limit) b (logging plan) l' s2 | None => (Ret tt, l', s2) end
          | (Ret false, l', s2) => (Ret tt, l', s2) | (Raise e, l', s2) => (Raise e, l', s2) | (Diverge, l', s2) => (Diverge, l', s2) end
      | (Raise e, s1) => (Raise e, l, s1) | (Diverge, s1) => (Diverge, l, s1) end) by (intros [m|]; reflexivity).
    assert (Es : read_loop (S fuel) (Some (S n)) b (logging plan) l st =
      match read_record st b with
      | (Ret it, s1) => match logging plan l s1 it with
          | (Ret true, l', s2) => match snd (fst it) with Some _ => read_loop fuel (Some n) b (logging plan) l' s2 | None => (Ret tt, l', s2) end
          | (Ret false, l', s2) => (Ret tt, l', s2) | (Raise e, l', s2) => (Raise e, l', s2) | (Diverge, l', s2) => (Diverge, l', s2) end
      | (Raise e, s1) => (Raise e, l, s1) | (Diverge, s1) => (Diverge, l, s1) end) by reflexivity.
    rewrite Es. clear Es. pose proof (read_record_later st b) as [L P].
    destruct (read_record st b) as [[it|e|] s1] eqn:E1.
    + destruct (logging_eq plan l s1 it) as (d & s2 & E2 & L2). rewrite E2 in *. cbn [fst snd] in L, P.
      assert (P' : snd (fst it) <> None -> List.length (rest s1) < List.length (rest st)).
      { destruct it as [[o [r|]] errs]; cbn [fst snd]; [intros _; exact (P o r errs eq_refl)|congruence]. }
      pose proof (later_rest _ _ L2) as L3. destruct (snd (fst it)) as [r|] eqn:Ei.
      * specialize (P' ltac:(discriminate)).
        specialize (IH fuel (l ++ [(it, d)]) s2 ltac:(lia)). cbv beta zeta in IH.
        destruct (read_loop fuel (Some n) b (logging plan) (l ++ [(it, d)]) s2) as [[o1 l1] st1].
        destruct IH as (got & -> & Hlen & Hc). exists ((it, d) :: got). rewrite <- app_assoc in *. split; [reflexivity|]. cbn [List.length].
        assert (Hit : with_record (it, d)) by (unfold with_record; cbn [fst]; rewrite Ei; discriminate).
        split; [lia|]. destruct Hc as [(-> & Hn & Hr & Hgo)|(Hsame & Hend)].
        -- left. split; [reflexivity|]. split; [lia|]. split; [constructor; [exact Hit|exact Hr]|]. intros limit f' Hf'. rewrite Er. exact (Hgo limit f' Hf').
        -- right. split; [intro limit; rewrite Er; apply Hsame|]. intro Ho. destruct (Hend Ho) as (bf & it' & d' & -> & Hb & Hi).
           exists ((it, d) :: bf), it', d'. split; [reflexivity|]. split; [constructor; [exact Hit|exact Hb]|exact Hi].
      * exists [(it, d)]. split; [reflexivity|]. split; [cbn; lia|]. right. split; [intro limit; apply Er|]. intros _. exists [], it, d.
        split; [reflexivity|]. split; [constructor|exact Ei].
    + exists []. rewrite app_nil_r. split; [reflexivity|]. split; [cbn; lia|]. right. split; [intro limit; apply Er|discriminate].
    + exists []. rewrite app_nil_r. split; [reflexivity|]. split; [cbn; lia|]. right. split; [intro limit; apply Er|discriminate].
Qed.

(** ** C63 *)
(** For every stream (any file, any parser, anywhere), any plan of reads and any [n]: a loop
    over read_records(limit=n) hands out at most [n] items, and when it has ended normally
    either it handed out [n] records, or less than that and then one item without a
    record. *)
Theorem C63_what_a_limited_loop_hands_out : forall plan offsets st n (before l : log) st1,
  for_read_records (Some n) offsets (logging plan) before st = (Ret tt, l, st1) ->
  exists got, l = before ++ got /\
  (List.length got = n /\ Forall with_record got \/
   exists records it d, got = records ++ [(it, d)] /\ List.length records < n /\ Forall with_record records /\ snd (fst it) = None).
Proof.
  intros plan b st n before l st1 H. pose proof (limited plan b n (file_fuel (s_fh st)) before st (rest_fuel st)) as G. cbv beta zeta in G.
  unfold for_read_records in H. rewrite H in G. destruct G as (got & -> & Hlen & Hc). exists got. split; [reflexivity|].
  destruct Hc as [(_ & Hn & Hr & _)|(_ & He)]; [left; auto|]. right. destruct (He eq_refl) as (records & it & d & -> & Hr & Hi).
  exists records, it, d. rewrite app_length in Hlen. cbn in Hlen. repeat split; try assumption. lia.
Qed.
(** After [n] records the loop can be taken up again on the same stream: with any further
    limit, or none, it goes on exactly as one loop with the sum of the limits would, also when
    payload of the last record is still unread. *)
Theorem C63_reading_can_be_resumed : forall plan offsets st n (l : log) st1,
  for_read_records (Some n) offsets (logging plan) [] st = (Ret tt, l, st1) ->
  List.length l = n -> Forall with_record l ->
  forall limit, for_read_records limit offsets (logging plan) l st1 = for_read_records (raise_limit n limit) offsets (logging plan) [] st.
Proof.
  intros plan b st n l st1 H Hl Hr limit. pose proof (limited plan b n (file_fuel (s_fh st)) [] st (rest_fuel st)) as G. cbv beta zeta in G.
  unfold for_read_records in *. rewrite H in G. destruct G as (got & E & _ & Hc). cbn [app] in E. subst got.
  destruct Hc as [(_ & _ & _ & Hgo)|(_ & He)].
  - symmetry. apply Hgo, rest_fuel.
  - destruct (He eq_refl) as (records & it & d & -> & _ & Hi). apply Forall_app in Hr as [_ Hr]. inversion Hr as [|? ? Hx _]; subst. destruct (Hx Hi).
Qed.
(** A loop that ended before its limit, or raised, is not changed by a larger limit. *)
Theorem C63_larger_limits_change_nothing : forall plan offsets st n o (l : log) st1,
  for_read_records (Some n) offsets (logging plan) [] st = (o, l, st1) -> o <> Ret tt \/ List.length l < n ->
  forall limit, for_read_records (raise_limit n limit) offsets (logging plan) [] st = (o, l, st1).
Proof.
  intros plan b st n o l st1 H Hx limit. pose proof (limited plan b n (file_fuel (s_fh st)) [] st (rest_fuel st)) as G. cbv beta zeta in G.
  unfold for_read_records in *. rewrite H in G. destruct G as (got & E & _ & Hc). cbn [app] in E. subst got.
  destruct Hc as [(-> & Hn & _)|(Hs & _)]; [|apply Hs]. destruct Hx as [Hx|Hx]; [congruence|lia].
Qed.

(** ** a non-trivial case: two of three records, one of them half read, then the rest *)
Definition resume_plan (l : log) (it : item) : list cop := if Nat.eqb (List.length l) 1 then [OpRead (Some 2%Z)] else [].
Example C63_case : 
  let st := new_stream SPlain (mkfile (archive_text sample_archive_ok) 0 true) PWarc in
  let '(o, l, st1) := for_read_records (Some 2) true (logging resume_plan) [] st in
  o = Ret tt /\ List.length l = 2 /\ Forall with_record l /\ 2 < List.length sample_archive_ok.
Proof.
  vm_compute. split; [reflexivity|]. split; [reflexivity|]. split; [|lia]. repeat (constructor; [discriminate|]). constructor.
Qed.
