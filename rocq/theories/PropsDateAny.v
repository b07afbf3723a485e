(** C52, continued: what arc2warc makes of any date whatsoever. *)
From Verif Require Export PropsA2WMore.
From Coq Require Import String List Lia NArith ZArith.
Open Scope list_scope.

(** ** Specification *)
(** a field of a date: one or two digits with a value in a range; the day may also be a space and a digit *)
Definition digits_between (lo hi : N) (v : bytes) : Prop := (digits 1 v \/ digits 2 v) /\ (lo <= number v <= hi)%N.
Definition a_year (v : bytes) : Prop := digits 4 v.
Definition a_month : bytes -> Prop := digits_between 1 12.
Definition a_day (v : bytes) : Prop := digits_between 1 31 v \/ exists c, v = [32%N; c] /\ (49 <= c <= 57)%N.
Definition an_hour : bytes -> Prop := digits_between 0 23.
Definition a_minute : bytes -> Prop := digits_between 0 59.
Definition a_second : bytes -> Prop := digits_between 0 61.
Definition day_fields : list (bytes -> Prop) := [a_year; a_month; a_day].
Definition time_fields : list (bytes -> Prop) := day_fields ++ [an_hour; a_minute; a_second].
(** a text starts with the fields [vs], and [r] follows *)
Inductive cut_into : list (bytes -> Prop) -> bytes -> list bytes -> bytes -> Prop :=
| cut_none s : cut_into [] s [] s
| cut_field (f : bytes -> Prop) fs v s vs r : f v -> cut_into fs s vs r -> cut_into (f :: fs) (v ++ s) (v :: vs) r.
(** of two ways to cut a text the one whose first different field is longer is preferred *)
Fixpoint rather (vs ws : list bytes) : Prop :=
  match vs, ws with
  | v :: vs', w :: ws' => List.length w < List.length v \/ (List.length w = List.length v /\ rather vs' ws')
  | _, _ => True
  end.
(** the way a text is cut: whether something is left at the end does not count *)
Definition taken (fs : list (bytes -> Prop)) (s : bytes) (vs : list bytes) (r : bytes) : Prop :=
  cut_into fs s vs r /\ forall ws r', cut_into fs s ws r' -> rather vs ws.
Definition two_digits (v : bytes) : bytes :=
  match v with [c] => [48; c]%N | [a; c] => if N.eqb a 32 then [48; c]%N else v | _ => v end.
Inductive time_read (s : bytes) : bytes -> Prop :=
| TimeRead Y M D h mi se : taken time_fields s [Y; M; D; h; mi; se] [] -> calendar (number Y) (number M) (number D) ->
    clock_time (number h) (number mi) (number se) ->
    time_read s (warc_date Y (two_digits M) (two_digits D) (two_digits h) (two_digits mi) (two_digits se)).
Inductive day_read (s : bytes) : bytes -> Prop :=
| DayRead Y M D : taken day_fields s [Y; M; D] [] -> calendar (number Y) (number M) (number D) ->
    day_read s (warc_date Y (two_digits M) (two_digits D) (B "00") (B "00") (B "00")).
(** the date of an ARC record: a time, otherwise a day; an empty date is the current time *)
Inductive date_read (now : bytes) : bytes -> bytes -> Prop :=
| DateTime s text : s <> [] -> time_read s text -> date_read now s text
| DateDay s text : s <> [] -> (forall x, ~ time_read s x) -> day_read s text -> date_read now s text
| DateNow : date_read now [] now.
(** the date of a filedesc record: the first fourteen bytes for a time, otherwise the first eight for a day *)
Inductive desc_date_read (now : bytes) : bytes -> bytes -> Prop :=
| DescTime s text : 14 <= List.length s -> time_read (firstn 14 s) text -> desc_date_read now s text
| DescDay s text : 1 <= List.length s < 14 -> day_read (firstn 8 s) text -> desc_date_read now s text
| DescNone : desc_date_read now [] now.

(** ** Lemmas *)
Definition means (P : bytes -> Prop) (f : directive) : Prop := forall v, P v <-> fits f v.
Definition apart (a b : list (N -> bool)) : Prop :=
  List.length b <= List.length a \/ match a, b with p :: _, q :: _ => forall c, p c = true -> q c = true -> False | _, _ => False end.
Fixpoint ordered (f : directive) : Prop := match f with [] => True | a :: f' => Forall (apart a) f' /\ ordered f' end.
Lemma take_alt_app alt : forall v s, List.length v = List.length alt -> take_alt alt v = Some (v, []) -> take_alt alt (v ++ s) = Some (v, s).
Proof.
  induction alt as [|p alt IH]; intros [|c v] s Hl H; try discriminate; [reflexivity|]. cbn [take_alt app] in *. destruct (p c); [|discriminate].
  destruct (take_alt alt v) as [[v' r']|] eqn:E; [|discriminate]. injection H as -> ->. rewrite (IH v s); [reflexivity| |exact E]. cbn in Hl. lia.
Qed.
Lemma same_cut (v w s q : bytes) : v ++ s = w ++ q -> List.length v = List.length w -> v = w /\ s = q.
Proof. revert w. induction v as [|c v IH]; intros [|d w] E L; try discriminate; [auto|]. cbn [app] in E. injection E as -> E. destruct (IH w E) as [-> ->]; [cbn in L; lia|auto]. Qed.
Lemma apart_shorter a b s v r w q : apart a b -> take_alt a s = Some (v, r) -> take_alt b s = Some (w, q) -> List.length w <= List.length v.
Proof.
  intros H E1 E2. destruct (take_alt_split _ _ _ _ E1) as (_ & L1 & _). destruct (take_alt_split _ _ _ _ E2) as (_ & L2 & _).
  destruct H as [H|H]; [lia|]. destruct a as [|p a], b as [|p' b]; try contradiction. destruct s as [|c s]; [discriminate|]. cbn [take_alt] in E1, E2.
  destruct (p c) eqn:P1; [|discriminate]. destruct (p' c) eqn:P2; [|discriminate]. destruct (H c P1 P2).
Qed.
Lemma try_alts_none rest alts s : try_alts rest alts s = None -> forall b w q, In b alts -> take_alt b s = Some (w, q) -> rest q = None.
Proof.
  induction alts as [|a alts IH]; intros H b w q Hb E; [destruct Hb|]. cbn [try_alts] in H. destruct Hb as [->|Hb].
  - rewrite E in H. destruct (rest q) as [[vs r]|]; [discriminate|reflexivity].
  - apply (IH) with (b := b) (w := w); [|exact Hb|exact E]. destruct (take_alt a s) as [[v s']|]; [|exact H]. destruct (rest s') as [[vs r]|]; [discriminate|exact H].
Qed.
Lemma try_alts_some rest alts s vs r : ordered alts -> try_alts rest alts s = Some (vs, r) ->
  exists a v s' vs', vs = v :: vs' /\ In a alts /\ take_alt a s = Some (v, s') /\ rest s' = Some (vs', r) /\
    forall b w q, In b alts -> take_alt b s = Some (w, q) -> rest q <> None -> List.length w <= List.length v.
Proof.
  induction alts as [|a alts IH]; intros Ho H; [discriminate|]. cbn [try_alts] in H. destruct Ho as [Ha Ho].
  assert (G : try_alts rest alts s = Some (vs, r) -> (forall w q, take_alt a s = Some (w, q) -> rest q = None) ->
    exists a0 v s' vs', vs = v :: vs' /\ In a0 (a :: alts) /\ take_alt a0 s = Some (v, s') /\ rest s' = Some (vs', r) /\
    forall b w q, In b (a :: alts) -> take_alt b s = Some (w, q) -> rest q <> None -> List.length w <= List.length v).
  { intros E N. destruct (IH Ho E) as (a0 & v & s' & vs' & E1 & E2 & E3 & E4 & E5). exists a0, v, s', vs'. repeat (split; [assumption||(right; assumption)|]).
    intros b w q [->|Hb] Eb Hr; [destruct (Hr (N _ _ Eb))|]. exact (E5 b w q Hb Eb Hr). }
  destruct (take_alt a s) as [[v s']|] eqn:Et; [|apply G; [exact H|discriminate]].
  destruct (rest s') as [[vs' r']|] eqn:Er; [|apply G; [exact H|intros w q E; injection E as <- <-; exact Er]].
  injection H as <- <-. exists a, v, s', vs'. repeat (split; [auto with datatypes|]). intros b w q [->|Hb] Eb Hr; [rewrite Et in Eb; injection Eb as <- _; lia|].
  rewrite Forall_forall in Ha. exact (apart_shorter a b s v s' w q (Ha b Hb) Et Eb).
Qed.
Lemma match_cut Ps fs : Forall2 means Ps fs -> Forall ordered fs -> forall s,
  match match_format fs s with
  | Some (vs, r) => taken Ps s vs r
  | None => forall ws r', ~ cut_into Ps s ws r'
  end.
Proof.
  intro H. induction H as [|P f Ps fs Hm HF IH]; intros Ho s; cbn [match_format].
  - split; [constructor|]. intros ws r' _. exact I.
  - inversion Ho as [|? ? Ho1 Ho2]; subst. specialize (IH Ho2).
    assert (C : forall ws r', cut_into (P :: Ps) s ws r' -> exists b w q ws', ws = w :: ws' /\ In b f /\ take_alt b s = Some (w, q) /\ cut_into Ps q ws' r').
    { intros ws r' Hc. inversion Hc as [|? ? w q ws' ? Hw Hq]; subst. apply (proj1 (Hm w)) in Hw as (b & Hb & E & Hl).
      exists b, w, q, ws'. repeat (split; [auto|]); [|exact Hq]. apply take_alt_app; assumption. }
    destruct (try_alts (match_format fs) f s) as [[vs r]|] eqn:E.
    + destruct (try_alts_some _ _ _ _ _ Ho1 E) as (a & v & s' & vs' & -> & Ha & Et & Er & Hmax). destruct (take_alt_split _ _ _ _ Et) as (Es & Hl & Hv).
      pose proof (IH s') as T. rewrite Er in T. destruct T as [T1 T2]. split.
      * rewrite Es. constructor; [|exact T1]. apply (proj2 (Hm v)). exists a. auto.
      * intros ws r' Hc. destruct (C _ _ Hc) as (b & w & q & ws' & -> & Hb & Eb & Hq). cbn [rather].
        assert (Hn : match_format fs q <> None). { intro N. pose proof (IH q) as T. rewrite N in T. exact (T _ _ Hq). }
        pose proof (Hmax b w q Hb Eb Hn) as L. destruct (Nat.eq_dec (List.length w) (List.length v)) as [Ew|Ew]; [right|left; lia]. split; [exact Ew|].
        destruct (take_alt_split _ _ _ _ Eb) as (Es' & _). apply (T2 ws' r'). assert (w = v /\ q = s') as [_ ->]; [|exact Hq].
        rewrite Es in Es'. apply same_cut in Es' as [-> ->]; [auto|lia].
    + intros ws r' Hc. destruct (C _ _ Hc) as (b & w & q & ws' & -> & Hb & Eb & Hq). pose proof (try_alts_none _ _ _ E b w q Hb Eb) as N.
      pose proof (IH q) as T. rewrite N in T. exact (T _ _ Hq).
Qed.

Lemma rather_same Ps s : forall vs ws r r', cut_into Ps s vs r -> cut_into Ps s ws r' -> rather vs ws -> rather ws vs -> vs = ws /\ r = r'.
Proof.
  intros vs ws r r' H. revert ws r'. induction H as [s|f fs v s vs r Hv Hc IH]; intros ws r' H' R1 R2.
  - inversion H'; subst. auto.
  - inversion H' as [|? ? w q ws' ? Hw Hq Eq]; subst. cbn [rather] in R1, R2.
    destruct (same_cut w v q s) as [-> ->]; [congruence|lia|]. destruct R1 as [R1|[_ R1]]; [lia|]. destruct R2 as [R2|[_ R2]]; [lia|].
    destruct (IH ws' r' Hq R1 R2) as [-> ->]. auto.
Qed.
Lemma match_taken Ps fs s vs r : Forall2 means Ps fs -> Forall ordered fs -> (match_format fs s = Some (vs, r) <-> taken Ps s vs r).
Proof.
  intros Hm Ho. pose proof (match_cut Ps fs Hm Ho s) as M. split; intro H; [rewrite H in M; exact M|].
  destruct (match_format fs s) as [[ws r']|]; [|destruct H as [H _]; destruct (M _ _ H)].
  destruct H as [H1 H2]. destruct M as [M1 M2]. destruct (rather_same Ps s vs ws r r' H1 M1 (H2 _ _ M1) (M2 _ _ H1)) as [-> ->]. reflexivity.
Qed.
(** the directives *)
Lemma digits1 s : digits 1 s -> exists a, s = [a] /\ (48 <= a <= 57)%N.
Proof. intros [Hl Hd]. destruct s as [|a [|b s]]; try discriminate. exists a. split; [reflexivity|apply Hd; cbn; auto]. Qed.
Lemma number1 a : (48 <= a <= 57)%N -> number [a] = (a - 48)%N.
Proof. intro Ha. unfold number. cbn [fold_left]. rewrite is_digit_iff by assumption. lia. Qed.
Lemma digits1_of a : (48 <= a <= 57)%N -> digits 1 [a].
Proof. intro H. split; [reflexivity|]. intros c [<-|[]]; exact H. Qed.
Lemma fits_by f v alt : In alt f -> take_alt alt v = Some (v, []) -> fits f v.
Proof. intros Hi H. exists alt. split; [exact Hi|]. split; [exact H|]. destruct (take_alt_split _ _ _ _ H) as (_ & L & _). exact L. Qed.
Lemma take1 p a : p a = true -> take_alt [p] [a] = Some ([a], []).
Proof. intro H. cbn [take_alt]. rewrite H. reflexivity. Qed.
Lemma take2 p q a b : p a = true -> q b = true -> take_alt [p; q] [a; b] = Some ([a; b], []).
Proof. intros H1 H2. cbn [take_alt]. rewrite H1, H2. reflexivity. Qed.
Ltac inr := apply rng_iff; lia.
Ltac ino := apply one_iff; lia.
Ltac here n := match n with O => left; reflexivity | S ?m => right; here m end.
Lemma means_Y : means a_year F_Y.
Proof.
  intro v. split; [|apply fits_Y]. intro H. destruct (digits4 v H) as (a & b & c & d & -> & Ha & Hb & Hc & Hd).
  apply (fits_by _ _ [any_digit; any_digit; any_digit; any_digit]); [here 0|]. cbn [take_alt]. unfold any_digit.
  rewrite !(proj2 (rng_iff 0 9 _)) by lia. reflexivity.
Qed.
Ltac alts H := destruct H as (alt & Hin & E & Hl); repeat (destruct Hin as [<-|Hin]; [shape; peel E|]); [..|destruct Hin].
Ltac ranged := unfold a_month, an_hour, a_minute, a_second; match goal with
  | |- digits_between _ _ [?a; ?b] => split; [right; apply digits2_of; lia|rewrite number2; lia]
  | |- digits_between _ _ [?a] => split; [left; apply digits1_of; lia|rewrite number1; lia]
  end.
Lemma means_m : means a_month F_m.
Proof.
  intro v. split.
  - intros [[H|H] Hr].
    + destruct (digits1 v H) as (a & -> & Ha). rewrite number1 in Hr by exact Ha. apply (fits_by _ _ [rng 1 9]); [here 2|]. apply take1. inr.
    + destruct (digits2 v H) as (a & b & -> & Ha & Hb). rewrite number2 in Hr by assumption. destruct (N.eq_dec a 49) as [->|N].
      * apply (fits_by _ _ [one 1; rng 0 2]); [here 0|]. apply take2; [ino|inr].
      * apply (fits_by _ _ [one 0; rng 1 9]); [here 1|]. apply take2; [ino|inr].
  - intro H. alts H; ranged.
Qed.
Lemma means_d : means a_day F_d.
Proof.
  intro v. split.
  - intros [[[H|H] Hr]|(c & -> & Hc)].
    + destruct (digits1 v H) as (a & -> & Ha). rewrite number1 in Hr by exact Ha. apply (fits_by _ _ [rng 1 9]); [here 3|]. apply take1. inr.
    + destruct (digits2 v H) as (a & b & -> & Ha & Hb). rewrite number2 in Hr by assumption. destruct (N.eq_dec a 48) as [->|N0]; [|destruct (N.eq_dec a 51) as [->|N3]].
      * apply (fits_by _ _ [one 0; rng 1 9]); [here 2|]. apply take2; [ino|inr].
      * apply (fits_by _ _ [one 3; rng 0 1]); [here 0|]. apply take2; [ino|inr].
      * apply (fits_by _ _ [rng 1 2; any_digit]); [here 1|]. apply take2; [inr|inr].
    + apply (fits_by _ _ [N.eqb 32; rng 1 9]); [here 4|]. apply take2; [reflexivity|inr].
  - intro H. alts H; try (left; ranged; fail). right. subst. eexists. split; [reflexivity|lia].
Qed.
Lemma means_H : means an_hour F_H.
Proof.
  intro v. split.
  - intros [[H|H] Hr].
    + destruct (digits1 v H) as (a & -> & Ha). apply (fits_by _ _ [any_digit]); [here 2|]. apply take1. inr.
    + destruct (digits2 v H) as (a & b & -> & Ha & Hb). rewrite number2 in Hr by assumption. destruct (N.eq_dec a 50) as [->|N].
      * apply (fits_by _ _ [one 2; rng 0 3]); [here 0|]. apply take2; [ino|inr].
      * apply (fits_by _ _ [rng 0 1; any_digit]); [here 1|]. apply take2; [inr|inr].
  - intro H. alts H; ranged.
Qed.
Lemma means_M : means a_minute F_M.
Proof.
  intro v. split.
  - intros [[H|H] Hr].
    + destruct (digits1 v H) as (a & -> & Ha). apply (fits_by _ _ [any_digit]); [here 1|]. apply take1. inr.
    + destruct (digits2 v H) as (a & b & -> & Ha & Hb). rewrite number2 in Hr by assumption. apply (fits_by _ _ [rng 0 5; any_digit]); [here 0|]. apply take2; [inr|inr].
  - intro H. alts H; ranged.
Qed.
Lemma means_S : means a_second F_S.
Proof.
  intro v. split.
  - intros [[H|H] Hr].
    + destruct (digits1 v H) as (a & -> & Ha). apply (fits_by _ _ [any_digit]); [here 2|]. apply take1. inr.
    + destruct (digits2 v H) as (a & b & -> & Ha & Hb). rewrite number2 in Hr by assumption. destruct (N.eq_dec a 54) as [->|N].
      * apply (fits_by _ _ [one 6; rng 0 1]); [here 0|]. apply take2; [ino|inr].
      * apply (fits_by _ _ [rng 0 5; any_digit]); [here 1|]. apply take2; [inr|inr].
  - intro H. alts H; ranged.
Qed.
Ltac ord := repeat first [exact I | apply Forall_nil | apply Forall_cons | (left; cbn; lia) | match goal with |- ordered _ => split | |- _ /\ _ => split end].
Lemma ordered_day : Forall ordered FORMAT8.
Proof.
  unfold FORMAT8, F_Y, F_m, F_d. ord. right. intros c H1 H2. apply rng_iff in H1. apply N.eqb_eq in H2. lia.
Qed.
Lemma ordered_time : Forall ordered FORMAT14.
Proof.
  apply (Forall_app ordered FORMAT8 [F_H; F_M; F_S]). split; [exact ordered_day|]. unfold F_H, F_M, F_S. ord.
Qed.
Lemma means_day : Forall2 means day_fields FORMAT8.
Proof. constructor; [exact means_Y|]. constructor; [exact means_m|]. constructor; [exact means_d|]. constructor. Qed.
Lemma means_time : Forall2 means time_fields FORMAT14.
Proof. apply (Forall2_app means_day). constructor; [exact means_H|]. constructor; [exact means_M|]. constructor; [exact means_S|]. constructor. Qed.
Lemma pad_two lo hi v : digits_between lo hi v -> pad2 (number v) = two_digits v.
Proof.
  intros [[H|H] _].
  - destruct (digits1 v H) as (a & -> & Ha). rewrite number1 by exact Ha. unfold pad2, dig, two_digits. f_equal; [lia|]. f_equal. lia.
  - rewrite pad2_number by exact H. destruct (digits2 v H) as (a & b & -> & Ha & Hb). unfold two_digits. destruct (N.eqb_spec a 32); [lia|reflexivity].
Qed.
Lemma pad_day v : a_day v -> pad2 (number v) = two_digits v.
Proof.
  intros [H|(c & -> & Hc)]; [exact (pad_two _ _ _ H)|]. unfold number. cbn [fold_left]. change (is_digit 32) with false. cbn iota. rewrite is_digit_iff by lia.
  unfold pad2, dig, two_digits. cbn [N.eqb]. change (N.eqb 32 32) with true. cbn iota. f_equal; [lia|]. f_equal. lia.
Qed.
Lemma taken_six Ps s vs r : cut_into Ps s vs r -> Forall2 (fun (P : bytes -> Prop) v => P v) Ps vs.
Proof. induction 1; constructor; assumption. Qed.
Lemma time_read_iff s text : time_read s text <-> exists dt, strptime FORMAT14 s = Some dt /\ warc_datetime_str dt = text.
Proof.
  assert (G : forall Y M D h mi se, taken time_fields s [Y; M; D; h; mi; se] [] ->
    digits 4 Y /\ forall u, warc_datetime_str (mkdt (number Y) (number M) (number D) (number h) (number mi) (number se) u) =
      warc_date Y (two_digits M) (two_digits D) (two_digits h) (two_digits mi) (two_digits se)).
  { intros Y M D h mi se [Hc _]. apply taken_six in Hc. inversion Hc as [|? ? ? ? HY Hc1]; subst. inversion Hc1 as [|? ? ? ? HM Hc2]; subst. inversion Hc2 as [|? ? ? ? HD Hc3]; subst.
    inversion Hc3 as [|? ? ? ? Hh Hc4]; subst. inversion Hc4 as [|? ? ? ? Hmi Hc5]; subst. inversion Hc5 as [|? ? ? ? Hse Hc6]; subst. split; [exact HY|].
    intro u. rewrite warc_datetime_str_eq. cbn [dt_year dt_month dt_day dt_hour dt_min dt_sec]. rewrite pad4_number by exact HY.
    rewrite (pad_two _ _ _ HM), (pad_day _ HD), (pad_two _ _ _ Hh), (pad_two _ _ _ Hmi), (pad_two _ _ _ Hse). reflexivity. }
  split.
  - intros [Y M D h mi se Ht Hc Hk]. destruct (G _ _ _ _ _ _ Ht) as [HY Et]. apply (match_taken _ _ _ _ _ means_time ordered_time) in Ht.
    unfold strptime. rewrite Ht. eexists. split; [apply new_datetime_iff; [apply number4_small; exact HY|]; repeat (split; [eassumption|]); reflexivity|]. apply Et.
  - intros (dt & E & <-). unfold strptime in E. destruct (match_format FORMAT14 s) as [[vs r]|] eqn:Em; [|discriminate].
    pose proof Em as Ht. apply (match_taken _ _ _ _ _ means_time ordered_time) in Ht. destruct (match_format_split _ _ _ _ Em) as [_ HF].
    unfold FORMAT14 in HF. inversion HF as [|? Y ? vs1 F1 R1]; subst. inversion R1 as [|? M ? vs2 F2 R2]; subst. inversion R2 as [|? D ? vs3 F3 R3]; subst.
    inversion R3 as [|? h ? vs4 F4 R4]; subst. inversion R4 as [|? mi ? vs5 F5 R5]; subst. inversion R5 as [|? se ? vs6 F6 R6]; subst. inversion R6; subst.
    destruct r; [|discriminate]. destruct (G _ _ _ _ _ _ Ht) as [HY Et]. apply new_datetime_iff in E; [|apply number4_small; exact HY]. destruct E as (E1 & E2 & ->).
    rewrite Et. constructor; assumption.
Qed.
Lemma day_read_iff s text : day_read s text <-> exists dt, strptime FORMAT8 s = Some dt /\ warc_datetime_str dt = text.
Proof.
  assert (G : forall Y M D, taken day_fields s [Y; M; D] [] ->
    digits 4 Y /\ forall u, warc_datetime_str (mkdt (number Y) (number M) (number D) 0 0 0 u) =
      warc_date Y (two_digits M) (two_digits D) (B "00") (B "00") (B "00")).
  { intros Y M D [Hc _]. apply taken_six in Hc. inversion Hc as [|? ? ? ? HY Hc1]; subst. inversion Hc1 as [|? ? ? ? HM Hc2]; subst. inversion Hc2 as [|? ? ? ? HD Hc3]; subst.
    split; [exact HY|]. intro u. rewrite warc_datetime_str_eq. cbn [dt_year dt_month dt_day dt_hour dt_min dt_sec]. rewrite pad4_number by exact HY.
    rewrite (pad_two _ _ _ HM), (pad_day _ HD). reflexivity. }
  split.
  - intros [Y M D Ht Hc]. destruct (G _ _ _ Ht) as [HY Et]. apply (match_taken _ _ _ _ _ means_day ordered_day) in Ht.
    unfold strptime. rewrite Ht. eexists. split; [apply new_datetime_iff; [apply number4_small; exact HY|]; split; [eassumption|]; split; [unfold clock_time; lia|reflexivity]|]. apply Et.
  - intros (dt & E & <-). unfold strptime in E. destruct (match_format FORMAT8 s) as [[vs r]|] eqn:Em; [|discriminate].
    pose proof Em as Ht. apply (match_taken _ _ _ _ _ means_day ordered_day) in Ht. destruct (match_format_split _ _ _ _ Em) as [_ HF].
    unfold FORMAT8 in HF. inversion HF as [|? Y ? vs1 F1 R1]; subst. inversion R1 as [|? M ? vs2 F2 R2]; subst. inversion R2 as [|? D ? vs3 F3 R3]; subst. inversion R3; subst.
    destruct r; [|discriminate]. destruct (G _ _ _ Ht) as [HY Et]. apply new_datetime_iff in E; [|apply number4_small; exact HY]. destruct E as (E1 & _ & ->).
    rewrite Et. constructor; assumption.
Qed.
Lemma date_read_iff now s text : date_read now s text <->
  (s = [] /\ text = now) \/ (s <> [] /\ exists dt, arc_record_date s = Some dt /\ warc_datetime_str dt = text).
Proof.
  unfold arc_record_date. split.
  - intros [s' t Hs H|s' t Hs Hn H|]; [right|right|left; auto].
    + apply time_read_iff in H as (dt & -> & E). eauto.
    + split; [exact Hs|]. destruct (strptime FORMAT14 s') as [d|] eqn:E; [destruct (Hn (warc_datetime_str d)); apply time_read_iff; eauto|]. apply day_read_iff in H. exact H.
  - intros [[-> ->]|(Hs & dt & E & Et)]; [apply DateNow|]. destruct (strptime FORMAT14 s) as [d|] eqn:E14.
    + injection E as ->. apply DateTime; [exact Hs|]. apply time_read_iff. eauto.
    + apply DateDay; [exact Hs| |apply day_read_iff; eauto]. intros x Hx. apply time_read_iff in Hx as (d & Ed & _). congruence.
Qed.
Lemma desc_date_read_iff now s text : desc_date_read now s text <->
  (s = [] /\ text = now) \/ (s <> [] /\ exists dt, arc_filedesc_date s = Some dt /\ warc_datetime_str dt = text).
Proof.
  unfold arc_filedesc_date. split.
  - intros [s' t Hs H|s' t Hs H|]; [right|right|left; auto]; (split; [intros ->; cbn in Hs; lia|]).
    + rewrite (proj2 (Nat.leb_le _ _) Hs). apply time_read_iff. exact H.
    + rewrite (proj2 (Nat.leb_gt _ _)) by lia. apply day_read_iff. exact H.
  - intros [[-> ->]|(Hs & H)]; [apply DescNone|]. destruct (Nat.leb_spec 14 (List.length s)).
    + apply DescTime; [assumption|]. apply time_read_iff. exact H.
    + apply DescDay; [|apply day_read_iff; exact H]. destruct s; [contradiction|]. cbn in *. lia.
Qed.

Section AnyDate.
Variables (http_gz : bytes -> outcome bytes) (uuid : bytes -> bytes) (clock : nat -> datetime).
Definition now_of (t : transformer) : bytes := warc_datetime_str (clock (tr_asked t)).

(** ** C52 *)
(** every date that can be read has one reading *)
Theorem C52_one_reading : forall now date text1 text2, date_read now date text1 -> date_read now date text2 -> text1 = text2.
Proof.
  intros now date x y H1 H2. apply date_read_iff in H1, H2. destruct H1 as [[E1 ->]|(N1 & d1 & E1 & <-)], H2 as [[E2 ->]|(N2 & d2 & E2 & <-)]; try congruence.
Qed.
(** a record that is converted has the date that its date field reads as *)
Theorem C52_any_date : forall t st r url date ct content ds t' st',
  arc_record_at st r url date ct content -> convert http_gz uuid clock t st r = (Ret ds, t', st') ->
  exists d text, ds = [d] /\ date_read (now_of t) date text /\ header_is "WARC-Date" d text.
Proof.
  intros t st r url date ct content ds t' st' Hr H. destruct (convert_cases http_gz uuid clock t st r url date ct content ds t' st' Hr H) as (dt & ip & type & ct' & H1 & H2 & Hip & _ & ->).
  eexists. exists (warc_datetime_str dt). split; [reflexivity|]. split.
  - apply date_read_iff. destruct date as [|c date]; [left; split; [reflexivity|]; unfold now_of; rewrite (H1 eq_refl); reflexivity|right; split; [discriminate|]]. exists dt. split; [apply H2; discriminate|reflexivity].
  - unfold header_is. cbn [df_headers]. destruct (ip_names _ Hip) as [v ->]. destruct v; reflexivity.
Qed.
(** and a record whose date field has no reading is not converted *)
Theorem C52_unreadable_date : forall t st r url date,
  rec_url r = Some url -> rec_date r = Some date -> rec_type r <> Some (B "filedesc") ->
  (forall text, ~ date_read (now_of t) date text) -> convert http_gz uuid clock t st r = (Raise EValueError, t, st).
Proof.
  intros t st r url date Eu Ed Et H. unfold convert. rewrite (not_filedesc _ Et). unfold convert_record. rewrite Eu, Ed.
  destruct date as [|c date]; [destruct (H (now_of t)); apply DateNow|]. destruct (arc_record_date (c :: date)) as [dt|] eqn:E; [|reflexivity].
  destruct (H (warc_datetime_str dt)). apply date_read_iff. right. split; [discriminate|]. eauto.
Qed.
(** the same for filedesc records *)
Theorem C52_any_filedesc_date : forall t st r date ds t' st',
  rec_type r = Some (B "filedesc") -> rec_date r = Some date -> convert http_gz uuid clock t st r = (Ret ds, t', st') ->
  exists info meta text, ds = [info; meta] /\ desc_date_read (now_of t) date text /\ header_is "WARC-Date" meta text /\ header_is "WARC-Date" info (now_of t).
Proof.
  intros t st r date ds t' st' Et Ed. unfold convert. rewrite Et. change (is_some_eq (Some (B "filedesc")) V_FILEDESC) with true. cbn iota. unfold convert_filedesc. fold (now_of t). rewrite Ed.
  destruct (rec_url r) as [url|]; [|discriminate].
  set (md := match date with (_ :: _) as d => match arc_filedesc_date d with Some dt => Ret (warc_datetime_str dt) | None => Raise EValueError end | [] => Ret (now_of t) end).
  assert (Hm : forall x, md = Ret x -> desc_date_read (now_of t) date x).
  { intros x Hx. apply desc_date_read_iff. unfold md in Hx. destruct date as [|c date]; [left; split; [reflexivity|congruence]|right; split; [discriminate|]].
    destruct (arc_filedesc_date (c :: date)) as [dt|]; [|discriminate]. exists dt. split; [reflexivity|congruence]. }
  destruct md as [x| |]; try discriminate. destruct (arc_raw r st) as [[[raw| |] r'] st1]; try discriminate. intro H. injection H as <- <- <-.
  do 2 eexists. exists x. split; [reflexivity|]. split; [apply Hm; reflexivity|]. split; [reflexivity|]. unfold header_is. cbn [df_headers]. destruct (tr_output t); reflexivity.
Qed.
Theorem C52_unreadable_filedesc_date : forall t st r url date,
  rec_url r = Some url -> rec_date r = Some date -> rec_type r = Some (B "filedesc") ->
  (forall text, ~ desc_date_read (now_of t) date text) -> exists t' st', convert http_gz uuid clock t st r = (Raise EValueError, t', st').
Proof.
  intros t st r url date Eu Ed Et H. unfold convert. rewrite Et. change (is_some_eq (Some (B "filedesc")) V_FILEDESC) with true. cbn iota. unfold convert_filedesc. rewrite Eu, Ed.
  destruct date as [|c date]; [destruct (H (now_of t)); apply DescNone|]. destruct (arc_filedesc_date (c :: date)) as [dt|] eqn:E; [|eauto].
  destruct (H (warc_datetime_str dt)). apply desc_date_read_iff. right. split; [discriminate|]. eauto.
Qed.
End AnyDate.
(** ** C52: concrete cases *)
(** short dates are read with one-digit fields: seven digits end in a one-digit day; ten digits are a time with a one-digit
    day; a month that does not exist is read as a one-digit month; and what is left over makes the date unreadable *)
Example C52_short_dates :
  date_read [] (B "2020111") (B "2020-11-01T00:00:00Z") /\ date_read [] (B "2020131") (B "2020-01-31T00:00:00Z") /\
  date_read [] (B "2020111111") (B "2020-11-01T01:01:01Z") /\ date_read [] (B "202001 1") (B "2020-01-01T00:00:00Z") /\
  (forall text, ~ date_read [] (B "2020132") text) /\ (forall text, ~ date_read [] (B "20200230") text) /\
  desc_date_read [] (B "20200131999") (B "2020-01-31T00:00:00Z").
Proof.
  repeat split; try (apply date_read_iff; right; split; [discriminate|]; eexists; split; vm_compute; reflexivity);
    try (intros text H; apply date_read_iff in H as [[H _]|(_ & dt & E & _)]; [discriminate|vm_compute in E; discriminate]).
  apply desc_date_read_iff. right. split; [discriminate|]. eexists. split; vm_compute; reflexivity.
Qed.
